(** Python base layer: exceptions as values, [bytes] and [str] primitives.

    [str] is a list of Unicode code points, [bytes] a list of byte values; both
    are [list N].  Nothing here is specific to pyuff: these are the built-in
    operations the modelled code calls. *)
From Coq Require Export String Ascii.
From Coq Require Export List NArith ZArith Bool.
Export ListNotations.
Open Scope list_scope.

Definition str := list N.
Definition bytes := list N.

(** A literal of the source as a list of code points. *)
Fixpoint lit (s : string) : str :=
  match s with
  | EmptyString => []
  | String a r => N_of_ascii a :: lit r
  end.

(** Exceptions.  [PyException m] is [raise Exception(m)] of the source (without
    the parts of the message that only repeat a file name); the others are the
    built-in exceptions raised by an operation.  [Unmodelled] marks an outcome
    the model does not describe; no positive theorem concludes it.  [OutOfFuel]
    is the outcome of a loop model whose iteration bound was reached; it is not an
    exception of the program and is never caught. *)
Inductive exc :=
| KeyError (k : string)
| ValueError
| TypeError
| IndexError
| AttributeError
| OverflowError
| UnicodeError
| StructError
| UnboundLocalError
| PyException (m : string)
| OutOfFuel
| Unmodelled.

Inductive result (A : Type) :=
| Ok (a : A)
| Err (e : exc).
Arguments Ok {A} a.
Arguments Err {A} e.

Definition rbind {A B} (r : result A) (f : A -> result B) : result B :=
  match r with Ok a => f a | Err e => Err e end.
Notation "'do' x <- r ;; k" := (rbind r (fun x => k))
  (at level 200, x name, r at level 100, k at level 200, right associativity).
Notation "'do' ' p <- r ;; k" := (rbind r (fun x => match x with p => k end))
  (at level 200, p strict pattern, r at level 100, k at level 200, right associativity).

(** Evaluate a list of fallible computations left to right (a Python tuple or
    list display, a list comprehension). *)
Fixpoint rseq {A} (l : list (result A)) : result (list A) :=
  match l with
  | [] => Ok []
  | r :: rest => do a <- r ;; do t <- rseq rest ;; Ok (a :: t)
  end.
Definition rmap {A B} (f : A -> result B) (l : list A) : result (list B) :=
  rseq (map f l).

Definition of_option {A} (e : exc) (o : option A) : result A :=
  match o with Some a => Ok a | None => Err e end.

(** [try: r except: raise e'] with a bare [except]; the two
    outcomes that are not exceptions are kept. *)
Definition try_any {A} (r : result A) (e' : exc) : result A :=
  match r with
  | Ok a => Ok a
  | Err Unmodelled => Err Unmodelled
  | Err OutOfFuel => Err OutOfFuel
  | Err _ => Err e'
  end.

(** Equality of code point lists. *)
Fixpoint leqb (a b : list N) : bool :=
  match a, b with
  | [], [] => true
  | x :: a', y :: b' => (x =? y)%N && leqb a' b'
  | _, _ => false
  end.

(** [s.startswith(p)] *)
Fixpoint prefixb (p s : list N) : bool :=
  match p, s with
  | [], _ => true
  | x :: p', y :: s' => (x =? y)%N && prefixb p' s'
  | _ :: _, [] => false
  end.

(** [p in s] *)
Fixpoint containsb (p s : list N) : bool :=
  prefixb p s || match s with [] => false | _ :: s' => containsb p s' end.

(** [data.find(p, start)]: the least index >= start at which [p] occurs, or
    [None] for Python's -1. *)
Fixpoint find_from (p s : list N) (pos : nat) : option nat :=
  if prefixb p s then Some pos
  else match s with
       | [] => None
       | _ :: s' => find_from p s' (S pos)
       end.
Definition py_find (p s : list N) (start : nat) : option nat :=
  if Nat.ltb (length s) start then None
  else find_from p (skipn start s) start.

(** [s[i:j]] for 0 <= i, j. *)
Definition slice {A} (i j : nat) (s : list A) : list A := firstn (j - i) (skipn i s).

(** [s[i::step]] and [s[i:len-stop:step]], step > 0. *)
Fixpoint every_aux {A} (step : nat) (skip : nat) (l : list A) : list A :=
  match l with
  | [] => []
  | x :: r => match skip with
              | O => x :: every_aux step (pred step) r
              | S k => every_aux step k r
              end
  end.
Definition every {A} (start step : nat) (l : list A) : list A := every_aux step start l.
(** [l[start:-drop:step]] *)
Definition every_upto {A} (start drop step : nat) (l : list A) : list A :=
  every start step (firstn (length l - drop) l).

(** [l[i]] for i >= 0 and negative i as in Python. *)
Definition py_nth {A} (l : list A) (i : Z) : result A :=
  let n := Z.of_nat (length l) in
  let j := (if i <? 0 then i + n else i)%Z in
  if ((j <? 0) || (n <=? j))%Z then Err IndexError
  else of_option IndexError (nth_error l (Z.to_nat j)).

(** [l[i:j]] with possibly negative bounds. *)
Definition norm_bound (n i : Z) : Z :=
  let j := (if i <? 0 then i + n else i)%Z in
  Z.max 0 (Z.min j n).
Definition py_slice {A} (i j : Z) (l : list A) : list A :=
  let n := Z.of_nat (length l) in
  slice (Z.to_nat (norm_bound n i)) (Z.to_nat (norm_bound n j)) l.

Definition blank : N := 32%N.
Definition LF : N := 10%N.
Definition CR : N := 13%N.

(** Line boundaries of [bytes.splitlines] and of [str.splitlines]. *)
Definition is_lb_bytes (c : N) : bool := ((c =? 10) || (c =? 13))%N.
Definition is_lb_str (c : N) : bool :=
  ((c =? 10) || (c =? 11) || (c =? 12) || (c =? 13) || (c =? 28) || (c =? 29) || (c =? 30)
   || (c =? 133) || (c =? 8232) || (c =? 8233))%N.

(** [s.splitlines(keep)]; CR LF counts as one boundary. *)
Fixpoint splitlines (lb : N -> bool) (keep : bool) (s : list N) : list (list N) :=
  match s with
  | [] => []
  | c :: r =>
      if lb c then
        match r with
        | c' :: r' =>
            if ((c =? 13) && (c' =? 10))%N
            then (if keep then [c; c'] else []) :: splitlines lb keep r'
            else (if keep then [c] else []) :: splitlines lb keep r
        | [] => [if keep then [c] else []]
        end
      else
        match splitlines lb keep r with
        | [] => [[c]]
        | l :: ls => (c :: l) :: ls
        end
  end.
Definition splitlines_str := splitlines is_lb_str.
Definition splitlines_bytes := splitlines is_lb_bytes.

(** White space: [str.isspace] code points, and ASCII white space for bytes. *)
Definition is_ws (c : N) : bool :=
  (((9 <=? c) && (c <=? 13)) || ((28 <=? c) && (c <=? 32)) || (c =? 133) || (c =? 160)
   || (c =? 5760) || ((8192 <=? c) && (c <=? 8202)) || (c =? 8232) || (c =? 8233)
   || (c =? 8239) || (c =? 8287) || (c =? 12288))%N.
(** White space around the text of a number: [int] and [float] skip all of it but
    the separators U+001C..U+001F. *)
Definition is_ws_num (c : N) : bool := is_ws c && negb ((28 <=? c) && (c <=? 31))%N.
Definition is_ws_bytes (c : N) : bool := (((9 <=? c) && (c <=? 13)) || (c =? 32))%N.

Fixpoint dropwhile (f : N -> bool) (s : list N) : list N :=
  match s with
  | [] => []
  | c :: r => if f c then dropwhile f r else s
  end.
Definition lstrip_by f s := dropwhile f s.
Definition rstrip_by f s := rev (dropwhile f (rev s)).
Definition strip_by f s := rstrip_by f (lstrip_by f s).
Definition strip := strip_by is_ws.
Definition rstrip := rstrip_by is_ws.
Definition strip_num := strip_by is_ws_num.

(** [s.split()] : maximal runs of non-white-space. *)
Fixpoint split_by (ws : N -> bool) (s : list N) : list (list N) :=
  match s with
  | [] => []
  | c :: r =>
      if ws c then split_by ws r
      else match r with
           | [] => [[c]]
           | c' :: _ =>
               if ws c' then [c] :: split_by ws r
               else match split_by ws r with
                    | [] => [[c]]
                    | t :: ts => (c :: t) :: ts
                    end
           end
  end.
Definition split := split_by is_ws.

(** [sep.join(l)] with the empty separator. *)
Definition join (l : list (list N)) : list N := concat l.

(** [s.lower()], ASCII letters only (other code points are never compared with
    or parsed as an ASCII letter by the callers). *)
Definition lower_char (c : N) : N := if ((65 <=? c) && (c <=? 90))%N then (c + 32)%N else c.
Definition lower (s : str) : str := map lower_char s.

(** [s.replace(a, b)] for single characters. *)
Definition replace1 (a b : N) (s : str) : str := map (fun c => if (c =? a)%N then b else c) s.

(** [s.replace(a, b)] for a pattern [a] of two characters replaced by two. *)
Fixpoint replace2 (a1 a2 b1 b2 : N) (s : str) : str :=
  match s with
  | c :: r => match r with
      | c' :: r' => if ((c =? a1) && (c' =? a2))%N
                    then b1 :: b2 :: replace2 a1 a2 b1 b2 r'
                    else c :: replace2 a1 a2 b1 b2 r
      | [] => [c]
      end
  | [] => []
  end.

(** Padding: [%ws] (right justified) and [%-ws] (left justified). *)
Definition rjust (w : nat) (s : str) : str := repeat blank (w - length s) ++ s.
Definition ljust (w : nat) (s : str) : str := s ++ repeat blank (w - length s).
