(** Model of pyuff/tools.py. *)
From Verif Require Import PyBase PyNum PyVal Utf8.
Open Scope Z_scope.

(** tools.py:4-17 [_opt_fields]: adds each default whose key is missing.  The
    Python function mutates and returns its argument; here the updated
    dictionary is returned. *)
Fixpoint opt_fields (d : dict) (defaults : dict) : dict :=
  match defaults with
  | [] => d
  | (k, v) :: r => opt_fields (if dmem d k then d else dput d k v) r
  end.

(** tools.py:42-50: the stripped fields of a line extended to 80 columns. *)
Fixpoint cut_fields (line : str) (widths : list nat) : list str :=
  match widths with
  | [] => []
  | w :: r => strip (firstn w line) :: cut_fields (skipn w line) r
  end.
Definition extend80 (line : str) : str :=
  if Nat.ltb (length line) 80 then line ++ repeat blank (80 - length line) else line.

(** tools.py:57-65 and 66-76: value of one field; [None] = ignored field. *)
Definition field_val (t : Z) (s : str) : result (option pyval) :=
  if t =? -1 then Ok None
  else if t =? 1 then Ok (Some (VStr s))
  else if t =? 2 then do z <- py_int s ;; Ok (Some (VInt z))
  else do f <- py_float s ;; Ok (Some (VFloat f)).
(** tools.py:77-83: replacement of an unreadable optional field. *)
Definition field_default (t : Z) : pyval :=
  if t =? 1 then VStr [] else if t =? 2 then VInt 0 else VFloat f_zero.

Definition put_opt (d : dict) (k : string) (v : option pyval) : dict :=
  match v with Some x => dput d (KS k) x | None => d end.

(** tools.py:57-65: mandatory fields. *)
Fixpoint mandatory (d : dict) (l : list (string * (Z * str))) : result dict :=
  match l with
  | [] => Ok d
  | (k, (t, s)) :: r => do v <- field_val t s ;; mandatory (put_opt d k v) r
  end.
(** tools.py:66-83: optional fields; a ValueError is replaced by the default. *)
Fixpoint optional (d : dict) (l : list (string * (Z * str))) : result dict :=
  match l with
  | [] => Ok d
  | (k, (t, s)) :: r =>
      match field_val t s with
      | Ok v => optional (put_opt d k v) r
      | Err ValueError => optional (dput d (KS k) (field_default t)) r
      | Err e => Err e
      end
  end.

(** tools.py:19-84 [_parse_header_line].  In the code [types] always has the
    length of [widths]; a shorter list would be an IndexError, which [combine]
    does not show, hence the explicit test. *)
Definition parse_header_line (line : str) (min_values : nat) (widths : list nat)
    (types : list Z) (names : list string) : result dict :=
  let fields := cut_fields (extend80 line) widths in
  let n_fields := length fields in
  if Nat.ltb (length names) n_fields || Nat.ltb n_fields min_values
  then Err (PyException "Error parsing header section; too many or to lessfields found")
  else if Nat.ltb (length types) n_fields then Err IndexError
  else
    let all := combine names (combine types fields) in
    do d <- mandatory [] (firstn min_values all) ;;
    optional d (skipn min_values all).

(** tools.py:86-119: one value formatted with f'{v:>w.0f}' or f'{v:>w.pE}'.
    Strings would be left aligned but a float format rejects them. *)
Definition fstr_arg (v : pyval) : result float :=
  match v with VStr _ => Err ValueError | _ => fmt_float_arg v end.
Inductive ffmt := F0 (w : nat) | FE (w p : nat).
Definition fstr (f : ffmt) (v : pyval) : result str :=
  do x <- fstr_arg v ;;
  Ok match f with
     | F0 w => rjust w (fmt_f0 x)
     | FE w p => rjust w (fmt_e true p x)
     end.
(** tools.py:86-119 [_write_record]: text handed to the single [fh.write]. *)
Definition write_record (values : list (result pyval)) (formats : list ffmt) (multiline : bool) : result str :=
  do vs <- rseq values ;;
  do parts <- rseq (map (fun '(v, f) => fstr f v) (combine vs formats)) ;;
  Ok (if multiline then concat (map (fun s => s ++ [LF]) parts) else concat parts ++ [LF]).

(** tools.py:121-127 [check_dict_for_none] *)
Definition is_none (v : pyval) : bool := match v with VNone => true | _ => false end.
Fixpoint check_dict_for_none (d : dict) : dict :=
  match d with
  | [] => []
  | (k, v) :: r => if is_none v then check_dict_for_none r else (k, v) :: check_dict_for_none r
  end.

(* ------------------------------------------------------------------ *)
(** ** Writers: successive effects on the open file *)

(** One step of a writer: [WTxt] is [fh.write(text)] (or the exception raised
    while the text is computed), [WRaw] a binary write, [WTrunc] the truncation
    caused by re-opening the file in mode 'w'. *)
Inductive item :=
| WTxt (r : result str)
| WRaw (b : bytes)
| WTrunc.

(** Contents of the file after the steps, up to the first exception. *)
Fixpoint run_items (file : bytes) (l : list item) : bytes * option exc :=
  match l with
  | [] => (file, None)
  | WTxt (Err e) :: _ => (file, Some e)
  | WTxt (Ok s) :: r =>
      match utf8_encode s with
      | Ok b => run_items (file ++ b) r
      | Err e => (file, Some e)
      end
  | WRaw b :: r => run_items (file ++ b) r
  | WTrunc :: r => run_items [] r
  end.

(** [except KeyError as msg: raise Exception('The required key ...')],
    [except: raise Exception('Error writing data-set #N')]. *)
Definition wrap_write (n : string) (e : exc) : exc :=
  match e with
  | KeyError k => PyException ("The required key '" ++ k ++ "' not present when writing data-set #" ++ n)
  | Unmodelled => Unmodelled
  | _ => PyException ("Error writing data-set #" ++ n)
  end.
(** The bare form without the KeyError clause. *)
Definition wrap_plain (n : string) (e : exc) : exc :=
  match e with
  | Unmodelled => Unmodelled
  | _ => PyException ("Error writing data-set #" ++ n)
  end.
Definition read_error (n : string) : exc := PyException ("Error reading data-set #" ++ n).

(** A writer: the dictionary it leaves behind, its steps, its exception wrapper. *)
Record wplan := { wp_dict : dict; wp_items : list item; wp_wrap : exc -> exc }.

Definition txt (f : string) (args : list (result pyval)) : item := WTxt (pct f args).
Definition I (z : Z) : result pyval := Ok (VInt z).
Definition Sv (s : string) : result pyval := Ok (VStr (lit s)).
(** [split_data[i]] for lines. *)
Definition ln (l : list str) (i : nat) : result str := of_option IndexError (nth_error l i).
