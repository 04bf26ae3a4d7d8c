(** Python numbers in text form: [int()], [float()], [%i], [%e], [%f]; exact
    models of binary64 rounding.  Floats are [SpecFloat.spec_float] values of
    format binary64 (53-bit significand, emax 1024). *)
From Verif Require Import PyBase.
From Coq Require Export SpecFloat.
Open Scope Z_scope.

(* ------------------------------------------------------------------ *)
(** ** Decimal digits *)

(** Digits of a natural number, most significant first; [fuel] is at least the
    number of binary digits, see [dec_nat]. *)
Fixpoint dec_aux (fuel : nat) (n : Z) : str :=
  match fuel with
  | O => [Z.to_N (48 + n mod 10)]
  | S f => if n <? 10 then [Z.to_N (48 + n)]
           else dec_aux f (n / 10) ++ [Z.to_N (48 + n mod 10)]
  end.
Definition dec_nat (n : Z) : str := dec_aux (Z.to_nat (Z.log2 n)) n.

(** [str(z)] *)
Definition dec_Z (z : Z) : str :=
  if z <? 0 then 45%N :: dec_nat (- z) else dec_nat z.

Definition is_digit (c : N) : bool := ((48 <=? c) && (c <=? 57))%N.
Definition digit_val (c : N) : Z := Z.of_N c - 48.
Definition digits_val (s : str) : Z := fold_left (fun a c => 10 * a + digit_val c) s 0.

(** Longest prefix satisfying [f], and the rest. *)
Fixpoint span (f : N -> bool) (s : str) : str * str :=
  match s with
  | [] => ([], [])
  | c :: r => if f c then let (a, b) := span f r in (c :: a, b) else ([], s)
  end.

(** Underscores are accepted between digits only; they are removed.  [None] if
    misplaced.  [prev] is the previous character. *)
Fixpoint rm_underscore (prev : N) (s : str) : option str :=
  match s with
  | [] => Some []
  | c :: r =>
      if (c =? 95)%N then
        if is_digit prev then
          match r with
          | c' :: _ => if is_digit c' then rm_underscore c r else None
          | [] => None
          end
        else None
      else option_map (cons c) (rm_underscore c r)
  end.

Definition read_sign (s : str) : bool * str :=
  match s with
  | c :: r => if (c =? 45)%N then (true, r) else if (c =? 43)%N then (false, r) else (false, s)
  | [] => (false, [])
  end.

(** [int(s)], base 10.  Simplification: ASCII digits only (Python also accepts
    other Unicode decimal digits), no limit on the number of digits. *)
Definition int_core (s : str) : option Z :=
  match rm_underscore 0%N s with
  | None => None
  | Some t =>
      let (neg, u) := read_sign t in
      let (ds, rest) := span is_digit u in
      match ds, rest with
      | _ :: _, [] => Some (if neg then - digits_val ds else digits_val ds)
      | _, _ => None
      end
  end.
Definition py_int (s : str) : result Z := of_option ValueError (int_core (strip_num s)).
(** [int(b)] for bytes. *)
Definition py_int_bytes (b : bytes) : result Z :=
  of_option ValueError (int_core (strip_by is_ws_bytes b)).

(* ------------------------------------------------------------------ *)
(** ** Rounding of positive rationals n/d *)

(** Nearest integer to n/d, ties to even (d > 0). *)
Definition rne (n d : Z) : Z :=
  let q := n / d in
  let r := n mod d in
  match 2 * r ?= d with
  | Lt => q
  | Gt => q + 1
  | Eq => if Z.even q then q else q + 1
  end.

(** Numerator and denominator of (n/d) / b^e. *)
Definition scale (b e n d : Z) : Z * Z :=
  if 0 <=? e then (n, d * b ^ e) else (n * b ^ (- e), d).

(** floor(log_b n), n > 0, with fuel at least the number of binary digits. *)
Fixpoint ilog_aux (b : Z) (fuel : nat) (n : Z) : Z :=
  match fuel with
  | O => 0
  | S f => if n <? b then 0 else 1 + ilog_aux b f (n / b)
  end.
Definition ilog (b n : Z) : Z := ilog_aux b (Z.to_nat (Z.log2 n)) n.

(** floor(log_b (n/d)), n, d > 0. *)
Definition flog (b n d : Z) : Z :=
  let k := ilog b n - ilog b d in
  let (n', d') := scale b k n d in
  if d' <=? n' then k else k - 1.

(* ------------------------------------------------------------------ *)
(** ** binary64 *)

Definition prec : Z := 53.
Definition emax : Z := 1024.
Definition emin : Z := -1074.
Definition float := spec_float.
Definition f_valid (f : float) : bool := valid_binary prec emax f.

(** Correctly rounded (nearest, ties to even) binary64 value of [s] n/d, n >= 0,
    d > 0; overflow gives infinity. *)
Definition round64 (s : bool) (n d : Z) : float :=
  if n =? 0 then S754_zero s
  else
    let e := Z.max (flog 2 n d - 52) emin in
    let (n', d') := scale 2 e n d in
    let q := rne n' d' in
    let (q, e) := if q =? 2 ^ 53 then (2 ^ 52, e + 1) else (q, e) in
    if 971 <? e then S754_infinity s
    else match q with
         | Zpos m => S754_finite s m e
         | _ => S754_zero s
         end.

(** Exact value m * 2^e as a fraction. *)
Definition frac_of (m : positive) (e : Z) : Z * Z :=
  if 0 <=? e then (Zpos m * 2 ^ e, 1) else (Zpos m, 2 ^ (- e)).

Definition f_zero : float := S754_zero false.
Definition f_one : float := S754_finite false (2 ^ 52)%positive (-52).
Definition f_max (s : bool) : float := S754_finite s (2 ^ 53 - 1)%positive 971.
Definition f_add := SFadd prec emax.
Definition f_sub := SFsub prec emax.
Definition f_mul := SFmul prec emax.
Definition f_finite (f : float) : bool :=
  match f with S754_finite _ _ _ | S754_zero _ => true | _ => false end.

(** [float(z)] for an int; overflow raises. *)
Definition float_of_Z (z : Z) : float := round64 (z <? 0) (Z.abs z) 1.
Definition py_float_of_int (z : Z) : result float :=
  match float_of_Z z with
  | S754_infinity _ => Err OverflowError
  | f => Ok f
  end.

(** [int(f)]: truncation; raises on infinities and NaN. *)
Definition py_int_of_float (f : float) : result Z :=
  match f with
  | S754_zero _ => Ok 0
  | S754_infinity _ => Err OverflowError
  | S754_nan => Err ValueError
  | S754_finite s m e =>
      let (n, d) := frac_of m e in
      Ok (if s then - (n / d) else n / d)
  end.

(** [float(s)].  Simplification: ASCII digits only. *)
Definition parse_exp (s : str) : option Z :=
  match s with
  | [] => Some 0
  | c :: r =>
      if ((c =? 101) || (c =? 69))%N then
        let (neg, u) := read_sign r in
        let (ds, rest) := span is_digit u in
        match ds, rest with
        | _ :: _, [] => Some (if neg then - digits_val ds else digits_val ds)
        | _, _ => None
        end
      else None
  end.
(** Value [digits] * 10^[e] rounded to binary64. *)
Definition float_of_dec (neg : bool) (m e : Z) : float :=
  if 0 <=? e then round64 neg (m * 10 ^ e) 1 else round64 neg m (10 ^ (- e)).
Definition float_unsigned (neg : bool) (u : str) : option float :=
  let (ip, r1) := span is_digit u in
  let (fp, r2) := match r1 with
                  | c :: r => if (c =? 46)%N then span is_digit r else ([], r1)
                  | [] => ([], [])
                  end in
  match ip ++ fp with
  | [] => None
  | ds => match parse_exp r2 with
          | Some e => Some (float_of_dec neg (digits_val ds) (e - Z.of_nat (length fp)))
          | None => None
          end
  end.
Definition float_core (s : str) : option float :=
  match rm_underscore 0%N s with
  | None => None
  | Some t =>
      let (neg, u) := read_sign t in
      let l := lower u in
      if leqb l (lit "inf") || leqb l (lit "infinity") then Some (S754_infinity neg)
      else if leqb l (lit "nan") then Some S754_nan
      else float_unsigned neg u
  end.
Definition py_float (s : str) : result float := of_option ValueError (float_core (strip_num s)).

(** [%.pe]: sign, [p]+1 significant decimal digits of the exact value rounded
    half to even, exponent with at least two digits.  [upper] gives [%E]. *)
Definition dec_round (p : Z) (m : positive) (e : Z) : Z * Z :=
  let (n, d) := frac_of m e in
  let k := flog 10 n d in
  let (n', d') := scale 10 (k - p) n d in
  let q := rne n' d' in
  if q =? 10 ^ (p + 1) then (10 ^ p, k + 1) else (q, k).
Definition pad0 (w : nat) (s : str) : str := repeat 48%N (w - length s) ++ s.
Definition exp_text (upper : bool) (k : Z) : str :=
  (if upper then 69%N else 101%N) :: (if k <? 0 then 45%N else 43%N) :: pad0 2 (dec_nat (Z.abs k)).
Definition mant_text (p : nat) (q : Z) : str :=
  match pad0 (S p) (dec_nat q) with
  | c :: r => match p with O => [c] | S _ => c :: 46%N :: r end
  | [] => []
  end.
Definition sign_text (s : bool) : str := if s then [45%N] else [].
Definition fmt_e (upper : bool) (p : nat) (f : float) : str :=
  match f with
  | S754_zero s => sign_text s ++ mant_text p 0 ++ exp_text upper 0
  | S754_finite s m e =>
      let (q, k) := dec_round (Z.of_nat p) m e in
      sign_text s ++ mant_text p q ++ exp_text upper k
  | S754_infinity s => sign_text s ++ (if upper then lit "INF" else lit "inf")
  | S754_nan => if upper then lit "NAN" else lit "nan"
  end.

(** [format(f, '.0f')]: nearest integer, ties to even. *)
Definition fmt_f0 (f : float) : str :=
  match f with
  | S754_zero s => sign_text s ++ [48%N]
  | S754_finite s m e => let (n, d) := frac_of m e in sign_text s ++ dec_nat (rne n d)
  | S754_infinity s => sign_text s ++ lit "inf"
  | S754_nan => lit "nan"
  end.

(* ------------------------------------------------------------------ *)
(** ** struct.pack / unpack *)

(** Little-endian bytes of a natural number. *)
Fixpoint le_bytes (k : nat) (z : Z) : bytes :=
  match k with
  | O => []
  | S k' => Z.to_N (z mod 256) :: le_bytes k' (z / 256)
  end.
Fixpoint of_le_bytes (b : bytes) : Z :=
  match b with
  | [] => 0
  | x :: r => Z.of_N x + 256 * of_le_bytes r
  end.

(** Bit pattern of a binary64 value (NaN: the quiet NaN). *)
Definition bits64 (f : float) : Z :=
  let sg (s : bool) := if s then 2 ^ 63 else 0 in
  match f with
  | S754_zero s => sg s
  | S754_infinity s => sg s + 2047 * 2 ^ 52
  | S754_nan => 2047 * 2 ^ 52 + 2 ^ 51
  | S754_finite s m e =>
      if Zpos m <? 2 ^ 52 then sg s + Zpos m
      else sg s + (e + 1075) * 2 ^ 52 + (Zpos m - 2 ^ 52)
  end.
(** [struct.pack('<d', f)] *)
Definition pack_d (f : float) : bytes := le_bytes 8 (bits64 f).

(** Value of a bit pattern with [mb] mantissa bits and [eb] exponent bits,
    [bias] = exponent of the unit of a subnormal, as a binary64 value. *)
Definition of_bits (mb eb : Z) (minexp : Z) (z : Z) : float :=
  let s := Z.odd (z / 2 ^ (mb + eb)) in
  let ef := (z / 2 ^ mb) mod 2 ^ eb in
  let mf := z mod 2 ^ mb in
  if ef =? 2 ^ eb - 1 then (if mf =? 0 then S754_infinity s else S754_nan)
  else
    let '(m, e) := if ef =? 0 then (mf, minexp) else (mf + 2 ^ mb, minexp + ef - 1) in
    if 0 <=? e then round64 s (m * 2 ^ e) 1 else round64 s m (2 ^ (- e)).
(** [struct.unpack('<d', b)], [struct.unpack('<f', b)]. *)
Definition unpack_d (b : bytes) : float := of_bits 52 11 (-1074) (of_le_bytes b).
Definition unpack_f (b : bytes) : float := of_bits 23 8 (-149) (of_le_bytes b).
