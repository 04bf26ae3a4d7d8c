(** Several objects and several files: the class UFF and [fix_58b] on a file
    system.  A name stands for one file (links and relative names that mean the
    same file are not modelled).  Access errors are in Access.v. *)
From Verif Require Import PyBase PyNum PyVal Tools DsHeaders Ds58 Uff.
Open Scope Z_scope.

(** [str.rfind] of one character: -1 if it does not occur. *)
Fixpoint rfind1 (c : N) (s : str) : Z :=
  match s with
  | [] => -1
  | x :: r => let i := rfind1 c r in if 0 <=? i then i + 1 else if (x =? c)%N then 0 else -1
  end.
Definition SEP : N := 47.
Definition DOT : N := 46.
(** [os.path.splitext] (posixpath, genericpath._splitext): the extension starts at
    the last dot of the last component, unless only dots precede it there. *)
Definition splitext (p : str) : str * str :=
  let sep := rfind1 SEP p in
  let dot := rfind1 DOT p in
  if (sep <? dot) && existsb (fun c => negb (c =? DOT)%N) (slice (Z.to_nat (sep + 1)) (Z.to_nat dot) p)
  then (firstn (Z.to_nat dot) p, skipn (Z.to_nat dot) p)
  else (p, []).
(** dataset_58.py:1553-1557: the file to be written by [fix_58b]. *)
Definition fix_target (src : str) (tgt : option str) : str :=
  match tgt with
  | Some t => t
  | None => let (base, ext) := splitext src in base ++ lit "_fixed" ++ ext
  end.

Definition files := str -> option bytes.
(** The objects in use, each with its file name. *)
Record world := { w_files : files; w_objs : nat -> option (str * uff) }.
Definition set_file (f : files) (n : str) (b : option bytes) : files := fun k => if leqb k n then b else f k.
Definition set_obj (o : nat -> option (str * uff)) (i : nat) (x : str * uff) : nat -> option (str * uff) :=
  fun k => if Nat.eqb k i then Some x else o k.

(** What a program can do: make an object (pyuff.py:89-116), call its methods, call
    [fix_58b]; [Outside] is a change of a file by something else. *)
Inductive op :=
| DoOpen (i : nat) (filename fileName : option str)
| DoRefresh (i : nat) | AskN (i : nat) | AskTypes (i : nat) | AskFormats (i : nat)
| AskName (i : nat) | AskExists (i : nat) | AskStatus (i : nat)
| DoRead (i : nat) (s : selection) (ho : bool)
| DoWrite (i : nat) (c : clock) (ds : list dict) (mode : str) (fd : bool)
| DoFix (src : str) (tgt : option str)
| Outside (n : str) (b : option bytes).
Inductive outcome :=
| Done | Raised (e : exc) | GaveBool (b : bool) | GaveNat (n : nat) | GaveInts (l : list Z) | GaveStr (s : str) | GaveSets (r : read_result).

(** pyuff.py:100-105: [filename] comes first. *)
Definition chosen (a b : option str) : option str := match a with Some n => Some n | None => b end.

(** A method call on object [i]: the new file content, object and outcome.  A call
    on a name that holds no object is outside the model. *)
Definition on_obj (w : world) (i : nat) (k : str -> option bytes -> uff -> option bytes * uff * outcome) : world * outcome :=
  match w_objs w i with
  | None => (w, Raised Unmodelled)
  | Some (n, u) =>
      let '(f', u', o) := k n (w_files w n) u in
      ({| w_files := set_file (w_files w) n f'; w_objs := set_obj (w_objs w) i (n, u') |}, o)
  end.
(** The getters and [refresh], pyuff.py:122-243. *)
Definition ask {A} (r : result (uff * A)) (give : A -> outcome) (f : option bytes) (u : uff) : option bytes * uff * outcome :=
  match r with Ok (u', a) => (f, u', give a) | Err e => (f, u, Raised e) end.
(** [read_sets]: an object that had to be refreshed stays so when the reading
    fails, pyuff.py:266-282. *)
Definition after_read (f : option bytes) (u : uff) : uff :=
  match f with
  | None => u
  | Some _ => match sync f u with Ok u' => u' | Err _ => u end
  end.

Definition act (w : world) (a : op) : world * outcome :=
  match a with
  | DoOpen i fn fn' =>
      match chosen fn fn' with
      | None => (w, Raised AttributeError)
      | Some n =>
          match uff_new (w_files w n) with
          | Ok u => ({| w_files := w_files w; w_objs := set_obj (w_objs w) i (n, u) |}, Done)
          | Err e => (w, Raised e)
          end
      end
  | DoRefresh i => on_obj w i (fun _ f u => ask (refresh f u) GaveBool f u)
  | AskN i => on_obj w i (fun _ f u => ask (get_n_sets f u) GaveNat f u)
  | AskTypes i => on_obj w i (fun _ f u => ask (get_set_types f u) GaveInts f u)
  | AskFormats i => on_obj w i (fun _ f u => ask (get_set_formats f u) GaveInts f u)
  | AskName i => on_obj w i (fun n f u => (f, u, GaveStr n))
  | AskExists i => on_obj w i (fun _ f u => (f, u, GaveBool (match f with Some _ => true | None => false end)))
  | AskStatus i => on_obj w i (fun _ f u => (f, u, GaveBool (refreshed u)))
  | DoRead i s ho =>
      on_obj w i (fun _ f u => match read_sets f u s ho with
                               | Ok (u', r) => (f, u', GaveSets r)
                               | Err e => (f, after_read f u, Raised e)
                               end)
  | DoWrite i c ds mode fd =>
      on_obj w i (fun _ f u => let '(f', u', e) := write_sets c f u ds mode fd in
                               (f', u', match e with Some e => Raised e | None => Done end))
  (** dataset_58.py:1504-1563 *)
  | DoFix src tgt =>
      match w_files w src with
      | None => (w, Raised (PyException "Filename does not exist"))
      | Some data =>
          match fix_58b data with
          | Ok out => ({| w_files := set_file (w_files w) (fix_target src tgt) (Some out); w_objs := w_objs w |}, Done)
          | Err e => (w, Raised (PyException "Error fixing UFF file"))
          end
      end
  | Outside n b => ({| w_files := set_file (w_files w) n b; w_objs := w_objs w |}, Done)
  end.
(** A program run: the calls with their outcomes, and the final state. *)
Fixpoint program (w : world) (h : list op) : world * list (op * outcome) :=
  match h with
  | [] => (w, [])
  | a :: r => let (w1, o) := act w a in let (w2, t) := program w1 r in (w2, (a, o) :: t)
  end.
