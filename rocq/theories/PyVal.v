(** Dynamically typed Python values, dictionaries, and [%]-formatting. *)
From Verif Require Import PyBase PyNum.
Open Scope Z_scope.

(** Element types of numpy arrays that occur. *)
Inductive dtype := DBool | DInt | DFloat | DCplx | DStr.

(** Dictionary keys: strings, and integers (data set 2412). *)
Inductive key := KS (s : string) | KI (z : Z).
Definition key_eqb (a b : key) : bool :=
  match a, b with
  | KS s, KS t => String.eqb s t
  | KI x, KI y => Z.eqb x y
  | _, _ => false
  end.

(** Values.  [VInt] and [VFloat] stand for the Python and the numpy scalars.
    [VList] is a list or tuple.  [VArr dt l] is a one-dimensional array,
    [VArr2 dt rows] a two-dimensional one. *)
Inductive pyval :=
| VNone
| VBool (b : bool)
| VInt (z : Z)
| VFloat (f : float)
| VCplx (re im : float)
| VStr (s : str)
| VList (l : list pyval)
| VArr (dt : dtype) (l : list pyval)
| VArr2 (dt : dtype) (rows : list (list pyval))
| VDict (d : list (key * pyval)).

Definition dict := list (key * pyval).

(** [d[k]] / [k in d] / [d[k] = v] / [d.update({k: v})]: insertion ordered. *)
Fixpoint dget (d : dict) (k : key) : option pyval :=
  match d with
  | [] => None
  | (k', v) :: r => if key_eqb k k' then Some v else dget r k
  end.
Definition dmem (d : dict) (k : key) : bool :=
  match dget d k with Some _ => true | None => false end.
Fixpoint dput (d : dict) (k : key) (v : pyval) : dict :=
  match d with
  | [] => [(k, v)]
  | (k', v') :: r => if key_eqb k k' then (k', v) :: r else (k', v') :: dput r k v
  end.
Definition dupdate (d e : dict) : dict := fold_left (fun a kv => dput a (fst kv) (snd kv)) e d.

Definition key_name (k : key) : string := match k with KS s => s | KI _ => ""%string end.
(** [dset['k']] with its KeyError. *)
Definition ix (d : dict) (k : string) : result pyval := of_option (KeyError k) (dget d (KS k)).

(** [len(v)] / iteration *)
Definition to_seq (v : pyval) : result (list pyval) :=
  match v with
  | VList l => Ok l
  | VArr _ l => Ok l
  | VArr2 dt rows => Ok (map (VArr dt) rows)
  | VStr s => Ok (map (fun c => VStr [c]) s)
  | _ => Err TypeError
  end.
Definition py_len (v : pyval) : result nat := do l <- to_seq v ;; Ok (length l).
(** [v[i]] *)
Definition at_ (rv : result pyval) (i : Z) : result pyval :=
  do v <- rv ;; do l <- to_seq v ;; py_nth l i.
(** [v[i, j]] on a two-dimensional array. *)
Definition at2 (rv : result pyval) (i j : Z) : result pyval :=
  do v <- rv ;;
  match v with
  | VArr2 _ rows => do row <- py_nth rows i ;; py_nth row j
  | VArr _ _ => Err IndexError
  | _ => Err TypeError
  end.

(** [int(v)] *)
Definition to_int (v : pyval) : result Z :=
  match v with
  | VInt z => Ok z
  | VBool b => Ok (if b then 1 else 0)
  | VFloat f => py_int_of_float f
  | VStr s => py_int s
  | VNone | VCplx _ _ | VList _ | VDict _ => Err TypeError
  | VArr _ _ | VArr2 _ _ => Err Unmodelled
  end.
(** Number for [%i]: as [int(v)] but strings are rejected. *)
Definition fmt_int_arg (v : pyval) : result Z :=
  match v with VStr _ => Err TypeError | _ => to_int v end.
(** Number for [%e] and float formatting. *)
Definition fmt_float_arg (v : pyval) : result float :=
  match v with
  | VInt z => py_float_of_int z
  | VBool b => py_float_of_int (if b then 1 else 0)
  | VFloat f => Ok f
  | VStr _ | VNone | VList _ | VDict _ => Err TypeError
  | VCplx _ _ | VArr _ _ | VArr2 _ _ => Err Unmodelled
  end.
(** [str(v)] for [%s]; the shortest representation of floats is not modelled. *)
Definition to_str (v : pyval) : result str :=
  match v with
  | VStr s => Ok s
  | VInt z => Ok (dec_Z z)
  | VNone => Ok (lit "None")
  | VBool b => Ok (if b then lit "True" else lit "False")
  | _ => Err Unmodelled
  end.

(** Parsed format strings. *)
Inductive fspec :=
| FLit (c : N)
| FInt (w : nat)
| FStr (lf : bool) (w : nat)
| FExp (w p : nat).

Inductive fstate :=
| SNorm
| SEsc
| SPct (lf : bool) (w : nat) (p : option nat).

Definition dig (a : ascii) : option nat :=
  let n := N_of_ascii a in
  if is_digit n then Some (N.to_nat (n - 48)) else None.

(** Interpretation of a Python format literal as written in the source: [\n] is
    the newline escape; conversions %[-][w][.p](i|s|e). *)
Fixpoint parse_fmt (st : fstate) (s : string) : list fspec :=
  match s with
  | EmptyString => []
  | String a r =>
      match st with
      | SNorm => if Ascii.eqb a "\" then parse_fmt SEsc r
                 else if Ascii.eqb a "%" then parse_fmt (SPct false 0 None) r
                 else FLit (N_of_ascii a) :: parse_fmt SNorm r
      | SEsc => (if Ascii.eqb a "n" then FLit LF else FLit (N_of_ascii a)) :: parse_fmt SNorm r
      | SPct lf w p =>
          if Ascii.eqb a "-" then parse_fmt (SPct true w p) r
          else if Ascii.eqb a "." then parse_fmt (SPct lf w (Some 0%nat)) r
          else match dig a with
               | Some k => match p with
                           | None => parse_fmt (SPct lf (10 * w + k)%nat None) r
                           | Some q => parse_fmt (SPct lf w (Some (10 * q + k)%nat)) r
                           end
               | None =>
                   (if Ascii.eqb a "i" then FInt w
                    else if Ascii.eqb a "s" then FStr lf w
                    else FExp w (match p with Some q => q | None => 6%nat end))
                   :: parse_fmt SNorm r
               end
      end
  end.

Fixpoint fmt_specs (l : list fspec) (args : list pyval) : result str :=
  match l with
  | [] => match args with [] => Ok [] | _ => Err TypeError end
  | FLit c :: r => do t <- fmt_specs r args ;; Ok (c :: t)
  | sp :: r =>
      match args with
      | [] => Err TypeError
      | v :: args' =>
          do s <- match sp with
                  | FInt w => do z <- fmt_int_arg v ;; Ok (rjust w (dec_Z z))
                  | FStr true w => do s <- to_str v ;; Ok (ljust w s)
                  | FStr false w => do s <- to_str v ;; Ok (rjust w s)
                  | FExp w p => do f <- fmt_float_arg v ;; Ok (rjust w (fmt_e false p f))
                  | FLit c => Ok [c]
                  end ;;
          do t <- fmt_specs r args' ;;
          Ok (s ++ t)
      end
  end.

(** ['fmt' % (a1, ..., an)]: the arguments are evaluated first. *)
Definition pct (f : string) (args : list (result pyval)) : result str :=
  do vs <- rseq args ;; fmt_specs (parse_fmt SNorm f) vs.

(** [v == n] for a number n. *)
Definition f_eqb (a b : float) : bool := SFeqb a b.
Definition py_eqZ (v : pyval) (n : Z) : bool :=
  match v with
  | VInt z => z =? n
  | VBool b => (if b then 1 else 0) =? n
  | VFloat f => f_eqb f (float_of_Z n)
  | VCplx re im => f_eqb re (float_of_Z n) && f_eqb im f_zero
  | _ => false
  end.

(** [bool(v)] *)
Definition truthy (v : pyval) : result bool :=
  match v with
  | VNone => Ok false
  | VBool b => Ok b
  | VInt z => Ok (negb (z =? 0))
  | VFloat f => Ok (negb (f_eqb f f_zero))
  | VCplx re im => Ok (negb (f_eqb re f_zero && f_eqb im f_zero))
  | VStr s => Ok (negb (Nat.eqb (length s) 0))
  | VList l => Ok (negb (Nat.eqb (length l) 0))
  | VDict d => Ok (negb (Nat.eqb (length d) 0))
  | VArr _ _ | VArr2 _ _ => Err Unmodelled
  end.

(* ------------------------------------------------------------------ *)
(** ** numpy *)

Definition is_arr (v : pyval) : bool :=
  match v with VArr _ _ | VArr2 _ _ => true | _ => false end.

(** dtype of an array built from scalars. *)
Definition scalar_dtype (v : pyval) : option dtype :=
  match v with
  | VBool _ => Some DBool
  | VInt _ => Some DInt
  | VFloat _ => Some DFloat
  | VCplx _ _ => Some DCplx
  | VStr _ => Some DStr
  | _ => None
  end.
Definition dt_rank (d : dtype) : nat :=
  match d with DBool => 0 | DInt => 1 | DFloat => 2 | DCplx => 3 | DStr => 4 end.
Definition dt_join (a b : dtype) : dtype := if Nat.ltb (dt_rank a) (dt_rank b) then b else a.
Fixpoint list_dtype (l : list pyval) : option dtype :=
  match l with
  | [] => None
  | [v] => scalar_dtype v
  | v :: r => match scalar_dtype v, list_dtype r with
              | Some a, Some b => Some (dt_join a b)
              | _, _ => None
              end
  end.
(** Conversion of a numeric scalar to a dtype (to strings: not modelled). *)
Definition cast (dt : dtype) (v : pyval) : result pyval :=
  match dt, v with
  | DBool, VBool b => Ok (VBool b)
  | DInt, VInt z => Ok (VInt z)
  | DInt, VBool b => Ok (VInt (if b then 1 else 0))
  | DFloat, VFloat f => Ok (VFloat f)
  | DFloat, VInt z => do f <- py_float_of_int z ;; Ok (VFloat f)
  | DFloat, VBool b => Ok (VFloat (float_of_Z (if b then 1 else 0)))
  | DCplx, VCplx a b => Ok (VCplx a b)
  | DCplx, VFloat f => Ok (VCplx f f_zero)
  | DCplx, VInt z => do f <- py_float_of_int z ;; Ok (VCplx f f_zero)
  | DCplx, VBool b => Ok (VCplx (float_of_Z (if b then 1 else 0)) f_zero)
  | DStr, VStr s => Ok (VStr s)
  | _, _ => Err Unmodelled
  end.
(** Integers outside int64 do not make an int64 array; what numpy makes of them
    (uint64 or object) is not modelled. *)
Definition in_int64 (v : pyval) : bool :=
  match v with VInt z => (- 2 ^ 63 <=? z)%Z && (z <? 2 ^ 63)%Z | _ => true end.
(** [np.asarray(v)] for one-dimensional content; an empty list has dtype float64. *)
Definition np_asarray (v : pyval) : result (dtype * list pyval) :=
  match v with
  | VArr dt l => Ok (dt, l)
  | VList [] => Ok (DFloat, [])
  | VList l => if forallb in_int64 l then
                 match list_dtype l with
                 | Some dt => do l' <- rmap (cast dt) l ;; Ok (dt, l')
                 | None => Err Unmodelled
                 end
               else Err Unmodelled
  | _ => Err Unmodelled
  end.
(** [np.iscomplexobj(v)] *)
Definition np_iscomplex (v : pyval) : result bool :=
  match v with
  | VCplx _ _ => Ok true
  | VBool _ | VInt _ | VFloat _ | VStr _ | VNone | VDict _ => Ok false
  | VArr2 DCplx _ => Ok true
  | VArr2 _ _ => Ok false
  | _ => do a <- np_asarray v ;; match fst a with DCplx => Ok true | _ => Ok false end
  end.

(** [np.nan_to_num]: NaN -> 0, infinities -> largest finite double. *)
Definition nan_to_num1 (f : float) : float :=
  match f with
  | S754_nan => f_zero
  | S754_infinity s => f_max s
  | _ => f
  end.
Definition nan_to_num_elt (v : pyval) : pyval :=
  match v with
  | VFloat f => VFloat (nan_to_num1 f)
  | VCplx a b => VCplx (nan_to_num1 a) (nan_to_num1 b)
  | _ => v
  end.
Definition np_nan_to_num (v : pyval) : result pyval :=
  match v with
  | VBool _ | VInt _ | VFloat _ | VCplx _ _ => Ok (nan_to_num_elt v)
  | VArr2 dt rows => Ok (VArr2 dt (map (map nan_to_num_elt) rows))
  | _ => do a <- np_asarray v ;; Ok (VArr (fst a) (map nan_to_num_elt (snd a)))
  end.

Definition floats_of (l : list pyval) : result (list float) := rmap fmt_float_arg l.
Definition vfloats (l : list float) : pyval := VArr DFloat (map VFloat l).
Definition vints (l : list Z) : pyval := VArr DInt (map VInt l).

(** [np.array(l, 'd')] of token strings. *)
Definition parse_floats (l : list str) : result (list float) := rmap py_float l.
Definition parse_ints (l : list str) : result (list Z) := rmap py_int l.

(* ------------------------------------------------------------------ *)
(** ** Complex numbers *)

(** [a + 1.j * b] for floats (Python before 3.14 and numpy): both operands are
    first converted to complex, products and sums are taken componentwise. *)
Definition cjoin (a b : float) : float * float :=
  (f_add a (f_sub (f_mul f_zero b) (f_mul f_one f_zero)),
   f_add f_zero (f_add (f_mul f_zero f_zero) (f_mul f_one b))).
Definition vcjoin (a b : float) : pyval := let (r, i) := cjoin a b in VCplx r i.

(** Elementwise operation of two one-dimensional arrays with broadcasting. *)
Definition bcast2 {A B C} (f : A -> B -> C) (a : list A) (b : list B) : result (list C) :=
  if Nat.eqb (length a) (length b) then Ok (map (fun p => f (fst p) (snd p)) (combine a b))
  else match a, b with
       | [x], _ => Ok (map (f x) b)
       | _, [y] => Ok (map (fun x => f x y) a)
       | _, _ => Err ValueError
       end.
(** [a + 1.j * b] on float arrays. *)
Definition np_cjoin (a b : list float) : result pyval :=
  do l <- bcast2 vcjoin a b ;; Ok (VArr DCplx l).

(** [v.real], [v.imag] *)
Definition real_of (r : result pyval) : result pyval :=
  do v <- r ;;
  match v with
  | VCplx a _ => Ok (VFloat a)
  | VFloat f => Ok (VFloat f)
  | VInt z => Ok (VInt z)
  | VBool b => Ok (VInt (if b then 1 else 0))
  | VArr _ _ | VArr2 _ _ => Err Unmodelled
  | _ => Err AttributeError
  end.
Definition imag_of (r : result pyval) : result pyval :=
  do v <- r ;;
  match v with
  | VCplx _ b => Ok (VFloat b)
  | VFloat _ => Ok (VFloat f_zero)
  | VInt _ | VBool _ => Ok (VInt 0)
  | VArr _ _ | VArr2 _ _ => Err Unmodelled
  | _ => Err AttributeError
  end.
