(** Files that cannot be opened: the calls of World.v when reading or writing is
    denied for some files.  [os.path.exists] is assumed to see every file (no
    directory is closed), and a file that can be opened for appending can be opened
    for overwriting. *)
From Verif Require Import PyBase PyNum PyVal Tools DsHeaders Ds58 Uff World.
Open Scope Z_scope.

(** Which files can be opened for reading and for writing (or made). *)
Record perms := { can_read : str -> bool; can_write : str -> bool }.
Definition no_read : exc := PyException "Cannot access the file".
Definition no_write : exc := PyException "Cannot access the file to write to.".

(** pyuff.py:171: the object is marked as not refreshed. *)
Definition stale (u : uff) : uff :=
  {| block_ind := block_ind u; refreshed := false; n_sets := n_sets u; set_types := set_types u; set_formats := set_formats u |}.
(** pyuff.py:164-243 [refresh] *)
Definition refresh_in (r : bool) (file : option bytes) (u : uff) : uff * result bool :=
  match file with
  | None => (stale u, Ok false)
  | Some _ => if r then match refresh file u with Ok (u', b) => (u', Ok b) | Err e => (stale u, Err e) end
              else (stale u, Err no_read)
  end.
(** pyuff.py:121-143 *)
Definition sync_in (r : bool) (file : option bytes) (u : uff) : uff * option exc :=
  if refreshed u then (u, None)
  else match refresh_in r file u with (u', Ok _) => (u', None) | (u', Err e) => (u', Some e) end.
Definition ask_in (r : bool) (give : uff -> outcome) (f : option bytes) (u : uff) : option bytes * uff * outcome :=
  match sync_in r f u with (u', None) => (f, u', give u') | (u', Some e) => (f, u', Raised e) end.
(** pyuff.py:245-282 [read_sets]; [_read_set] opens the file for each set
    (pyuff.py:348-351), and what it raises is replaced (pyuff.py:275-279). *)
Definition read_sets_in (r : bool) (file : option bytes) (u : uff) (s : selection) (ho : bool) : uff * result read_result :=
  let range := match s with
               | SelAll => map Z.of_nat (seq 0 (n_sets u))
               | SelOne n => [n]
               | SelList l => l
               end in
  match file with
  | None => (u, Err (PyException "Cannot read from a non-existing file"))
  | Some _ =>
      match sync_in r file u with
      | (u1, Some e) => (u1, Err e)
      | (u1, None) =>
          if r then match try_any (read_all file u1 range ho) (PyException "Error when reading data-set(s).") with
                    | Ok (u2, ds) => (u2, Ok (shape_result ds))
                    | Err e => (u1, Err e)
                    end
          else match range with
               | [] => (u1, Ok (Many []))
               | _ => (u1, Err (PyException "Error when reading data-set(s)."))
               end
      end
  end.
(** pyuff.py:403-482 [_write_set]: the file is opened, written, and read again. *)
Definition write_set_in (r w : bool) (c : clock) (m : wmode) (fd : bool) (file : option bytes) (u : uff) (d : dict) : wstate :=
  if w then
    let s := write_set c m fd file u d in
    match w_exc s with
    | Some _ => s
    | None => if r then s else {| w_file := w_file s; w_uff := stale u; w_dict := w_dict s; w_exc := Some no_read |}
    end
  else {| w_file := file; w_uff := u; w_dict := d; w_exc := Some no_write |}.
(** pyuff.py:284-322 [write_sets] *)
Fixpoint write_list_in (r w : bool) (c : clock) (m : wmode) (fd : bool) (file : option bytes) (u : uff) (l : list dict)
  : option bytes * uff * option exc :=
  match l with
  | [] => (file, u, None)
  | d :: l' =>
      let s := write_set_in r w c m fd file u d in
      match w_exc s with
      | Some e => (w_file s, w_uff s, Some e)
      | None => write_list_in r w c Add fd (w_file s) (w_uff s) l'
      end
  end.
Definition write_sets_in (r w : bool) (c : clock) (file : option bytes) (u : uff) (ds : list dict) (mode : str) (fd : bool)
  : option bytes * uff * option exc :=
  match ds with
  | [] => (file, u, Some (PyException "Nothing to write"))
  | _ => match parse_mode mode with
         | Err e => (file, u, Some e)
         | Ok m => write_list_in r w c m fd file u ds
         end
  end.

Definition act_in (p : perms) (w : world) (a : op) : world * outcome :=
  match a with
  (** pyuff.py:89-116: an exception of [refresh] leaves no object. *)
  | DoOpen i fn fn' =>
      match chosen fn fn' with
      | None => (w, Raised AttributeError)
      | Some n =>
          match refresh_in (can_read p n) (w_files w n) uff0 with
          | (u, Ok _) => ({| w_files := w_files w; w_objs := set_obj (w_objs w) i (n, u) |}, Done)
          | (_, Err e) => (w, Raised e)
          end
      end
  | DoRefresh i => on_obj w i (fun n f u => match refresh_in (can_read p n) f u with (u', Ok b) => (f, u', GaveBool b) | (u', Err e) => (f, u', Raised e) end)
  | AskN i => on_obj w i (fun n f u => ask_in (can_read p n) (fun u => GaveNat (n_sets u)) f u)
  | AskTypes i => on_obj w i (fun n f u => ask_in (can_read p n) (fun u => GaveInts (set_types u)) f u)
  | AskFormats i => on_obj w i (fun n f u => ask_in (can_read p n) (fun u => GaveInts (set_formats u)) f u)
  | DoRead i s ho =>
      on_obj w i (fun n f u => match read_sets_in (can_read p n) f u s ho with
                               | (u', Ok r) => (f, u', GaveSets r)
                               | (u', Err e) => (f, u', Raised e)
                               end)
  | DoWrite i c ds mode fd =>
      on_obj w i (fun n f u => let '(f', u', e) := write_sets_in (can_read p n) (can_write p n) c f u ds mode fd in
                               (f', u', match e with Some e => Raised e | None => Done end))
  (** dataset_58.py:1513-1563 *)
  | DoFix src tgt =>
      match w_files w src with
      | None => (w, Raised (PyException "Filename does not exist"))
      | Some _ => if can_read p src then
                    if can_write p (fix_target src tgt) then act w (DoFix src tgt)
                    else (w, Raised (PyException "Error fixing UFF file"))
                  else (w, Raised no_read)
      end
  | AskName _ | AskExists _ | AskStatus _ | Outside _ _ => act w a
  end.
(** A program; the rights may change from call to call. *)
Fixpoint program_in (w : world) (h : list (perms * op)) : world * list (op * outcome) :=
  match h with
  | [] => (w, [])
  | (p, a) :: r => let (w1, o) := act_in p w a in let (w2, t) := program_in w1 r in (w2, (a, o) :: t)
  end.
