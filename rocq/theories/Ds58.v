(** Model of pyuff/datasets/dataset_58.py (writer, extractor, fix_58b).

    The byte order of the machine is little endian (dataset_58.py:899). *)
From Verif Require Import PyBase PyNum PyVal Utf8 Tools DsNodes DsHeaders Ds55.
Open Scope Z_scope.

(* ------------------------------------------------------------------ *)
(** ** Writer *)

(** dataset_58.py:834-872: the defaults, in order. *)
Definition defaults58 : dict :=
  let none := VStr (lit "NONE") in
  let zero := VInt 0 in
  [(KS "units_description", VStr []); (KS "id1", none); (KS "id2", none); (KS "id3", none); (KS "id4", none);
   (KS "id5", none); (KS "func_id", zero); (KS "ver_num", zero); (KS "binary", zero); (KS "load_case_id", zero);
   (KS "rsp_ent_name", none); (KS "ref_ent_name", none); (KS "abscissa_axis_lab", none);
   (KS "abscissa_axis_units_lab", none); (KS "abscissa_len_unit_exp", zero); (KS "abscissa_force_unit_exp", zero);
   (KS "abscissa_temp_unit_exp", zero); (KS "ordinate_len_unit_exp", zero); (KS "ordinate_force_unit_exp", zero);
   (KS "ordinate_temp_unit_exp", zero); (KS "ordinate_axis_lab", none); (KS "ordinate_axis_units_lab", none);
   (KS "orddenom_len_unit_exp", zero); (KS "orddenom_force_unit_exp", zero); (KS "orddenom_temp_unit_exp", zero);
   (KS "orddenom_axis_lab", none); (KS "orddenom_axis_units_lab", none); (KS "z_axis_len_unit_exp", zero);
   (KS "z_axis_force_unit_exp", zero); (KS "z_axis_temp_unit_exp", zero); (KS "z_axis_axis_lab", none);
   (KS "z_axis_axis_units_lab", none); (KS "z_axis_value", zero); (KS "spec_data_type", zero);
   (KS "abscissa_spec_data_type", zero); (KS "ordinate_spec_data_type", zero); (KS "z_axis_spec_data_type", zero);
   (KS "version_num", zero); (KS "abscissa_spacing", zero)].

Definition eq_one_of (v : pyval) (l : list Z) : bool := existsb (py_eqZ v) l.

(** Difference of two real scalars (dataset_58.py:896) and product of a bool
    with a real scalar (dataset_58.py:917).  Integers are exact: the wrap-around
    of int64 differences is not modelled. *)
Definition as_num (v : pyval) : result (Z + float) :=
  match v with
  | VInt z => Ok (inl z)
  | VBool b => Ok (inl (if b then 1 else 0))
  | VFloat f => Ok (inr f)
  | VStr _ | VNone | VList _ | VDict _ => Err TypeError
  | VCplx _ _ | VArr _ _ | VArr2 _ _ => Err Unmodelled
  end.
Definition num_sub (a b : pyval) : result pyval :=
  do x <- as_num a ;; do y <- as_num b ;;
  match x, y with
  | inl m, inl n => Ok (VInt (m - n))
  | inr f, inr g => Ok (VFloat (f_sub f g))
  | inl m, inr g => do f <- py_float_of_int m ;; Ok (VFloat (f_sub f g))
  | inr f, inl n => do g <- py_float_of_int n ;; Ok (VFloat (f_sub f g))
  end.
Definition bool_mul (b : bool) (v : pyval) : result pyval :=
  do x <- as_num v ;;
  match x with
  | inl m => Ok (VInt (if b then m else 0))
  | inr f => Ok (VFloat (f_mul (if b then f_one else f_zero) f))
  end.

(** Assignment of a sequence to a strided slice of [n] places of a float array:
    lengths must agree or the sequence has one element. *)
Definition assign_slice (n : nat) (v : pyval) : result (list float) :=
  do l <- to_seq v ;;
  do fs <- match v with VStr _ => Err Unmodelled | _ => floats_of l end ;;
  if Nat.eqb (length fs) n then Ok fs
  else match fs with
       | [x] => Ok (repeat x n)
       | _ => Err ValueError
       end.
Definition arr_parts (part : result pyval -> result pyval) (v : pyval) : result pyval :=
  match v with
  | VArr _ l => do ps <- rmap (fun e => part (Ok e)) l ;; Ok (VArr DFloat ps)
  | VArr2 _ _ => Err Unmodelled
  | _ => Err AttributeError
  end.
(** dataset_58.py:939-957: the sequence of numbers to write. *)
Fixpoint interleave2 {A} (a b : list A) : list A :=
  match a, b with
  | x :: a', y :: b' => x :: y :: interleave2 a' b'
  | _, _ => []
  end.
Fixpoint interleave3 {A} (a b c : list A) : list A :=
  match a, b, c with
  | x :: a', y :: b', z :: c' => x :: y :: z :: interleave3 a' b' c'
  | _, _, _ => []
  end.
Definition payload58 (d : dict) (n : nat) (is_r is_even : bool) : result (list float) :=
  do data <- ix d "data" ;;
  if is_r then
    if is_even then
      match data with
      | VArr _ l | VList l => floats_of l
      | VArr2 _ _ => Err Unmodelled
      | _ => Err AttributeError
      end
    else
      do x <- ix d "x" ;; do xs <- assign_slice n x ;; do ys <- assign_slice n data ;; Ok (interleave2 xs ys)
  else if is_even then
    do re <- arr_parts real_of data ;; do rs <- assign_slice n re ;;
    do im <- arr_parts imag_of data ;; do is <- assign_slice n im ;;
    Ok (interleave2 rs is)
  else
    do x <- ix d "x" ;; do xs <- assign_slice n x ;;
    do re <- arr_parts real_of data ;; do rs <- assign_slice n re ;;
    do im <- arr_parts imag_of data ;; do is <- assign_slice n im ;;
    Ok (interleave3 xs rs is).

(** One line of numbers: the formats [ws] cyclically for the values. *)
Fixpoint num_line (ws : list (nat * nat)) (l : list float) : str :=
  match ws, l with
  | (w, p) :: ws', f :: l' => rjust w (fmt_e false p f) ++ num_line ws' l'
  | _, _ => [LF]
  end.
(** [n * 'fmt\n' % tuple(data[:k*n])], one line per [k] = length of [ws] values. *)
Fixpoint num_lines (ws : list (nat * nat)) (n : nat) (l : list float) : str :=
  match n with
  | O => []
  | S n' => num_line ws (firstn (length ws) l) ++ num_lines ws n' (skipn (length ws) l)
  end.
(** Full lines in one [write], then the remainder in another. *)
Definition num_block (ws : list (nat * nat)) (l : list float) : list item :=
  let k := length ws in
  WTxt (Ok (num_lines ws (length l / k) l))
  :: (if Nat.ltb 0 (length l mod k)
      then [WTxt (Ok (num_line ws (skipn (k * (length l / k)) l)))] else []).
(** dataset_58.py:976-1007: the ASCII data.  [dbl] = [is_double]; in the
    complex uneven double case a remainder is not written. *)
Definition ascii58 (dbl is_r is_even : bool) (l : list float) : list item :=
  if dbl then
    if is_even then num_block [(20,11);(20,11);(20,11);(20,11)]%nat l
    else if is_r then num_block [(13,5);(20,11);(13,5);(20,11)]%nat l
    else [WTxt (Ok (num_lines [(13,5);(20,11);(20,11)]%nat (length l / 3) l))]
  else num_block (repeat (13,5)%nat 6) l.

(** dataset_58.py:874-896: dictionary changes and values computed before the
    first write. *)
Record pre58 := { p_d : dict; p_n : nat; p_r : bool; p_dbl : result bool; p_nb : result Z;
                  p_even : bool; p_dx : pyval }.
Definition prepare58_write (d0 : dict) (force_double : bool) : result pre58 :=
  do data <- ix d0 "data" ;;
  do n <- py_len data ;;
  do c <- np_iscomplex data ;;
  let d1 := if force_double then dput d0 (KS "ord_data_type") (VInt (if c then 6 else 4)) else d0 in
  do odt <- ix d1 "ord_data_type" ;;
  let dbl := if eq_one_of odt [4; 6] then Ok true
             else if eq_one_of odt [2; 5] then Ok false else Err UnboundLocalError in
  let nb := do b <- dbl ;; Ok (Z.of_nat n * (if b then 8 else 4)) in
  do d2 <- (if dmem d1 (KS "n_bytes") then do b <- nb ;; Ok (dput d1 (KS "n_bytes") (VInt b)) else Ok d1) ;;
  do sp <- ix d2 "abscissa_spacing" ;;
  do even <- truthy sp ;;
  do x0 <- at_ (ix d2 "x") 0 ;;
  let d3 := dput d2 (KS "abscissa_min") x0 in
  do x1 <- at_ (ix d3 "x") 1 ;;
  do dx <- num_sub x1 x0 ;;
  Ok {| p_d := d3; p_n := n; p_r := negb c; p_dbl := dbl; p_nb := nb; p_even := even; p_dx := dx |}.

(** The dictionary as these lines leave it, also when one of them raises: each
    assignment is made as soon as its value is known. *)
Definition left58 (d0 : dict) (force_double : bool) : dict :=
  match (do data <- ix d0 "data" ;; do n <- py_len data ;; do c <- np_iscomplex data ;; Ok (n, c)) with
  | Err _ => d0
  | Ok (n, c) =>
      let d1 := if force_double then dput d0 (KS "ord_data_type") (VInt (if c then 6 else 4)) else d0 in
      match (do odt <- ix d1 "ord_data_type" ;;
             do b <- (if dmem d1 (KS "n_bytes")
                      then if eq_one_of odt [4; 6] then Ok (Some (Z.of_nat n * 8))
                           else if eq_one_of odt [2; 5] then Ok (Some (Z.of_nat n * 4)) else Err UnboundLocalError
                      else Ok None) ;; Ok b) with
      | Err _ => d1
      | Ok b =>
          let d2 := match b with Some b => dput d1 (KS "n_bytes") (VInt b) | None => d1 end in
          match (do sp <- ix d2 "abscissa_spacing" ;; do even <- truthy sp ;; at_ (ix d2 "x") 0) with
          | Err _ => d2
          | Ok x0 => dput d2 (KS "abscissa_min") x0
          end
      end
  end.

(** dataset_58.py:910-937: the header lines 2 to 12. *)
Definition axis_line (d : dict) (p : string) : item :=
  let k s := ix d (p ++ s) in
  txt "%10i%5i%5i%5i %-20s %-20s\n"
    [k "_spec_data_type"%string; k "_len_unit_exp"%string; k "_force_unit_exp"%string; k "_temp_unit_exp"%string;
     k "_axis_lab"%string; k "_axis_units_lab"%string].
Definition header58 (p : pre58) : list item :=
  let d := p_d p in
  map (fun k => txt "%-80s\n" [ix d k]) ["id1"; "id2"; "id3"; "id4"; "id5"]%string
  ++ [ txt "%5i%10i%5i%10i %10s%10i%4i %10s%10i%4i\n"
         (map (ix d) ["func_type"; "func_id"; "ver_num"; "load_case_id"; "rsp_ent_name"; "rsp_node"; "rsp_dir";
                      "ref_ent_name"; "ref_node"; "ref_dir"]%string);
       txt "%10i%10i%10i%13.5e%13.5e%13.5e\n"
         [ix d "ord_data_type"; I (Z.of_nat (p_n p)); Ok (VBool (p_even p));
          (do v <- ix d "abscissa_min" ;; bool_mul (p_even p) v); bool_mul (p_even p) (p_dx p); ix d "z_axis_value"];
       axis_line d "abscissa"; axis_line d "ordinate"; axis_line d "orddenom"; axis_line d "z_axis" ].

(** dataset_58.py:827-1016 [_write58].  [overwrite] is the mode: re-opening the
    file for the binary part truncates it, dataset_58.py:961-974. *)
Definition write58 (overwrite force_double : bool) (d : dict) : wplan :=
  let fail dd e := {| wp_dict := dd; wp_items := [WTxt (Err e)]; wp_wrap := wrap_write "58" |} in
  match ix d "func_type" with
  | Err e => fail d e
  | Ok ft =>
      if negb (eq_one_of ft [0;1;2;3;4;6;9]) then fail d ValueError
      else
        let d0 := opt_fields d defaults58 in
        match prepare58_write d0 force_double with
        | Err e => fail (left58 d0 force_double) e
        | Ok p =>
            let items :=
              txt "%6i\n%6i" [I (-1); I 58]
              :: match (do v <- ix (p_d p) "binary" ;; truthy v) with
                 | Err e => [WTxt (Err e)]
                 | Ok bin =>
                     (if bin
                      then txt "b%6i%6i%12i%12i%6i%6i%12i%12i\n"
                             [I 1; I 2; I 11; (do b <- p_nb p ;; Ok (VInt b)); I 0; I 0; I 0; I 0]
                      else txt "%74s\n" [Sv " "])
                     :: header58 p
                     ++ match payload58 (p_d p) (p_n p) (p_r p) (p_even p) with
                        | Err e => [WTxt (Err e)]
                        | Ok l =>
                            (if bin
                             then (if overwrite then [WTrunc] else [])
                                  ++ map (fun f => WRaw (pack_d f)) l
                                  ++ (if overwrite then [WTrunc] else [])
                             else match p_dbl p with
                                  | Ok dbl => ascii58 dbl (p_r p) (p_even p) l
                                  | Err e => [WTxt (Err e)]
                                  end)
                            ++ [end_line]
                        end
                 end in
            {| wp_dict := p_d p; wp_items := items; wp_wrap := wrap_write "58" |}
        end
  end.

(* ------------------------------------------------------------------ *)
(** ** Extractor *)

(** dataset_58.py:1045-1079: header records. *)
Definition axis_rec (i : nat) (p : string) : hrec :=
  H i 4 [10;5;5;5;21;21]%nat [2;2;2;2;1;1]
    (map (fun s => p ++ s)%string
       ["_spec_data_type"; "_len_unit_exp"; "_force_unit_exp"; "_temp_unit_exp"; "_axis_lab"; "_axis_units_lab"]%string).
Definition rec58b : hrec :=
  H 1 6 [6;1;6;6;12;12;6;6;12;12]%nat [-1;-1;2;2;2;2;-1;-1;-1;-1]
    [""; ""; "byte_ordering"; "fp_format"; "n_ascii_lines"; "n_bytes"; ""; ""; ""; ""]%string.
Definition recs58 : list hrec :=
  [ H 2 1 [80]%nat [1] ["id1"]%string; H 3 1 [80]%nat [1] ["id2"]%string; H 4 1 [80]%nat [1] ["id3"]%string;
    H 5 1 [80]%nat [1] ["id4"]%string; H 6 1 [80]%nat [1] ["id5"]%string;
    H 7 1 [5;10;5;10;11;10;4;11;10;4]%nat [2;2;2;2;1;2;2;1;2;2]
      ["func_type"; "func_id"; "ver_num"; "load_case_id"; "rsp_ent_name"; "rsp_node"; "rsp_dir"; "ref_ent_name";
       "ref_node"; "ref_dir"]%string;
    H 8 6 [10;10;10;13;13;13]%nat [2;2;2;3;3;3]
      ["ord_data_type"; "num_pts"; "abscissa_spacing"; "abscissa_min"; "abscissa_inc"; "z_axis_value"]%string;
    axis_rec 9 "abscissa"; axis_rec 10 "ordinate"; axis_rec 11 "orddenom"; axis_rec 12 "z_axis" ].

(** Groups of [w] bytes, [n] of them, as numbers. *)
Fixpoint unpack_all (conv : bytes -> float) (w n : nat) (b : bytes) : list float :=
  match n with
  | O => []
  | S n' => conv (firstn w b) :: unpack_all conv w n' (skipn w b)
  end.
(** dataset_58.py:1087-1103: binary values. *)
Definition binary_values (d : dict) (payload : bytes) : result (list float) :=
  do bo <- ix d "byte_ordering" ;;
  let ord := if py_eqZ bo 1 then (fun b : bytes => b) else @rev N in
  do odt <- ix d "ord_data_type" ;;
  if eq_one_of odt [2; 5]
  then Ok (unpack_all (fun b => unpack_f (ord b)) 4 (length payload / 4) payload)
  else Ok (unpack_all (fun b => unpack_d (ord b)) 8 (length payload / 8) payload).

(** dataset_58.py:1105-1128: ASCII values. *)
Definition all_blank13 (s : str) : bool := leqb s (repeat blank 13).
Fixpoint cells33 (n : nat) (s : str) : list str :=
  match n with
  | O => []
  | S n' => firstn 13 s :: slice 13 33 s :: cells33 n' (skipn 33 s)
  end.
Definition ascii_values (d : dict) (lines : list str) : result (list float) :=
  do odt <- ix d "ord_data_type" ;;
  do sp <- ix d "abscissa_spacing" ;;
  let cells w l := chop w (length l / w) l in
  if eq_one_of odt [2; 5] then
    do a <- rmap (fun l => parse_floats (cells 13%nat l)) (firstn (length lines - 1) lines) ;;
    do last <- py_nth lines (-1) ;;
    do b <- parse_floats (filter (fun c => negb (all_blank13 c)) (cells 13%nat last)) ;;
    Ok (concat a ++ b)
  else if eq_one_of odt [4; 6] && py_eqZ sp 1 then
    do a <- rmap (fun l => parse_floats (cells 20%nat l)) lines ;; Ok (concat a)
  else if py_eqZ odt 4 && py_eqZ sp 0 then
    do a <- rmap (fun l => parse_floats (cells33 (length l / 33) l)) lines ;; Ok (concat a)
  else if py_eqZ odt 6 && py_eqZ sp 0 then
    do a <- rmap (fun l => parse_floats [slice 0 13 l; slice 13 33 l; slice 33 53 l]) lines ;; Ok (concat a)
  else Err (PyException "Error reading data-set #58b; not proper data case.").

(** [min + np.arange(n) * d] *)
Definition arange_x (n : nat) (mn d : float) : pyval :=
  vfloats (map (fun i => f_add mn (f_mul (float_of_Z (Z.of_nat i)) d)) (seq 0 n)).

(** dataset_58.py:1119-1147: abscissa and ordinate; nothing is stored for other
    values of ord_data_type. *)
Definition assemble58 (d : dict) (values : list float) : result dict :=
  do odt <- ix d "ord_data_type" ;;
  do sp <- ix d "abscissa_spacing" ;;
  if eq_one_of odt [2; 4] then
    if py_eqZ sp 0 then
      Ok (dupdate d [(KS "x", vfloats (every_upto 0 1 2 values)); (KS "data", vfloats (every 1 2 values))])
    else
      do mn <- get_float d "abscissa_min" ;; do inc <- get_float d "abscissa_inc" ;;
      Ok (dupdate d [(KS "x", arange_x (length values) mn inc); (KS "data", vfloats values)])
  else if eq_one_of odt [5; 6] then
    if py_eqZ sp 0 then
      do data <- np_cjoin (every_upto 1 1 3 values) (every 2 3 values) ;;
      Ok (dupdate d [(KS "x", vfloats (every_upto 0 2 3 values)); (KS "data", data)])
    else
      do mn <- get_float d "abscissa_min" ;; do inc <- get_float d "abscissa_inc" ;;
      do data <- np_cjoin (every_upto 0 1 2 values) (every 1 2 values) ;;
      Ok (dupdate d [(KS "x", arange_x ((length values + 1) / 2) mn inc); (KS "data", data)])
  else Ok d.

(** dataset_58.py:1019-1151 [_extract58]; the block is bytes. *)
Definition extract58 (block : bytes) (header_only : bool) : result dict :=
  try_any
    (let blines := splitlines_bytes true block in
     let header := splitlines_str true (utf8_decode (join (firstn 13 blines))) in
     do h1 <- ln header 1 ;;
     let binary := match nth_error h1 6 with
                   | Some c => (lower_char c =? 98)%N
                   | None => false
                   end in
     let d0 := [(KS "type", VInt 58); (KS "binary", VInt (if binary then 1 else 0))] in
     do d1 <- header_recs header d0 (if binary then [rec58b] else []) ;;
     do d <- header_recs header d1 recs58 ;;
     if header_only then Ok (dupdate d [(KS "x", VNone); (KS "data", VNone)])
     else
       do values <- (if binary then binary_values d (join (skipn 13 blines))
                     else ascii_values d (skipn 13 (splitlines_str true (utf8_decode block)))) ;;
       assemble58 d values)
    (PyException "Error reading data-set #58b").

(* ------------------------------------------------------------------ *)
(** ** fix_58b *)

Definition minus1 : bytes := lit "    -1".
Definition is_m1 (l : bytes) : bool := leqb (strip_by is_ws_bytes l) (lit "-1").
Definition rstrip_crlf (l : bytes) : bytes := rstrip_by is_lb_bytes l.
(** [l[-1:]] *)
Definition last1 (l : bytes) : bytes := skipn (length l - 1) l.
Definition glue (prev m1 : bytes) : bytes := rstrip_crlf prev ++ minus1 ++ last1 m1.

(** dataset_58.py:1527-1535: the last line. *)
Definition fix1 (lines : list bytes) : list bytes :=
  match rev lines with
  | l :: p :: r => if is_m1 l then rev (glue p l :: r) else lines
  | _ => lines
  end.
(** dataset_58.py:1537-1548: [rest] = lines[i:], the loop runs while at
    least four lines remain.  Every step shortens [rest]. *)
Fixpoint fix2 (fuel : nat) (rest : list bytes) : result (list bytes) :=
  match rest with
  | a :: b :: c :: e :: r =>
      match fuel with
      | O => Err OutOfFuel
      | S f => if is_m1 b && is_m1 c then fix2 f (glue a b :: c :: e :: r)
               else do t <- fix2 f (b :: c :: e :: r) ;; Ok (a :: t)
      end
  | _ => Ok rest
  end.
(** dataset_58.py:1504-1563 [fix_58b]: content of the file to be written.  The file names are chosen in
    World.v; access errors are not modelled. *)
Definition fix_58b_fuel (fuel : nat) (data : bytes) : result bytes :=
  do ls <- fix2 fuel (fix1 (splitlines_bytes true data)) ;; Ok (join ls).
Definition fix_58b (data : bytes) : result bytes := fix_58b_fuel (length (splitlines_bytes true data)) data.
