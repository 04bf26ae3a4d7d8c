(** Model of pyuff/datasets/dataset_2414.py (writer and extractor). *)
From Verif Require Import PyBase PyNum PyVal Utf8 Tools DsNodes DsHeaders DsGroups Ds55.
Open Scope Z_scope.

(* ------------------------------------------------------------------ *)
(** ** Writer *)

Definition rec_names (r : string) (n : nat) : list string :=
  firstn n (map (fun i => ("record" ++ r ++ "_field" ++ i)%string) ["1"; "2"; "3"; "4"; "5"; "6"; "7"; "8"]%string).
(** dataset_2414.py:554-561 *)
Definition defaults2414 : dict :=
  map (fun k => (KS k, VInt 0)) (rec_names "10" 8 ++ rec_names "11" 8 ++ rec_names "12" 6 ++ rec_names "13" 6).

(** [v.shape[0]] *)
Definition shape0 (v : pyval) : result nat :=
  match v with
  | VArr _ l => Ok (length l)
  | VArr2 _ rows => Ok (length rows)
  | _ => Err AttributeError
  end.
(** [np.real(v)], [np.imag(v)] of a scalar; other arguments are not modelled. *)
Definition np_real (r : result pyval) : result pyval :=
  do v <- r ;; match v with VCplx _ _ | VFloat _ | VInt _ | VBool _ => real_of (Ok v) | _ => Err Unmodelled end.
Definition np_imag (r : result pyval) : result pyval :=
  do v <- r ;; match v with VCplx _ _ | VFloat _ | VInt _ | VBool _ => imag_of (Ok v) | _ => Err Unmodelled end.

(** Field names of records 9 to 13, dataset_2414.py:576-614. *)
Definition names9 : list string :=
  ["model_type"; "analysis_type"; "data_characteristic"; "result_type"; "data_type";
   "number_of_data_values_for_the_data_component"]%string.
Definition names10 : list string :=
  ["design_set_id"; "iteration_number"; "solution_set_id"; "boundary_condition"; "load_set"; "mode_number";
   "time_step_number"; "frequency_number"]%string.
Definition names11 : list string := ["creation_option"; "number_retained"]%string.
Definition names12 : list string :=
  ["time"; "frequency"; "eigenvalue"; "modal_mass"; "viscous_damping"; "hysteretic_damping"]%string.
Definition names13 : list string :=
  ["real_part_eigenvalue"; "imaginary_part_eigenvalue"; "real_part_of_modal_A_or_modal_mass";
   "imaginary_part_of_modal_A_or_modal_mass"; "real_part_of_modal_B_or_modal_mass";
   "imaginary_part_of_modal_B_or_modal_mass"]%string.
Definition fmt8 : string := "%10i%10i%10i%10i%10i%10i%10i%10i\n".
Definition fmt6e : string := "  %.5e  %.5e  %.5e  %.5e  %.5e  %.5e\n".

(** dataset_2414.py:615-638: one node of the frequency response variant. *)
Definition node2414 (d : dict) (i : Z) : list item :=
  let c k := [np_real (at_ (ix d k) i); np_imag (at_ (ix d k) i)] in
  txt "%10i\n" [int_arg (at_ (ix d "node_nums") i)]
  :: match ix d "number_of_data_values_for_the_data_component" with
     | Err e => [WTxt (Err e)]
     | Ok nv =>
         if py_eqZ nv 3 then
           [txt "%13.5e%13.5e%13.5e%13.5e%13.5e%13.5e\n" (c "x"%string ++ c "y"%string ++ c "z"%string)]
         else if py_eqZ nv 2 then [txt "%13.5e%13.5e%13.5e%13.5e\n" (c "x"%string ++ c "y"%string)]
         else if py_eqZ nv 1 then [txt "%13.5e%13.5e\n" (c "x"%string)]
         else []
     end.

(** A row of '%13.5e', each value its own [write], then the line break
    (dataset_2414.py:672-675, 682-685, 694-696). *)
Definition row13 (r : result pyval) : list item :=
  match (do v <- r ;; to_seq v) with
  | Err e => [WTxt (Err e)]
  | Ok l => map (fun f => txt "%13.5e" [Ok f]) l ++ [txt "\n" []]
  end.

(** [for index in range(d[k].shape[0])] *)
Definition for_shape (d : dict) (k : string) (body : Z -> list item) : list item :=
  match (do v <- ix d k ;; shape0 v) with
  | Err e => [WTxt (Err e)]
  | Ok n => flat_map body (map Z.of_nat (seq 0 n))
  end.

(** dataset_2414.py:544-707 [_write2414]; messages to standard output are not
    modelled.  Location 5 writes no end line. *)
Definition body2414 (d : dict) : list item :=
  match ix d "analysis_type" with
  | Err e => [WTxt (Err e)]
  | Ok at_v =>
      if py_eqZ at_v 5 then
        [ txt fmt8 (map (ix d) names10); txt "%10i%10i\n" (map (ix d) names11);
          txt fmt6e (map (ix d) names12); txt fmt6e (map (ix d) names13) ]
        ++ for_shape d "node_nums" (node2414 d) ++ [end_line]
      else
        [ txt fmt8 (map (ix d) (rec_names "10" 8)); txt fmt8 (map (ix d) (rec_names "11" 8));
          txt fmt6e (map (ix d) (rec_names "12" 6)); txt fmt6e (map (ix d) (rec_names "13" 6)) ]
        ++ match ix d "dataset_location" with
           | Err e => [WTxt (Err e)]
           | Ok loc =>
               if py_eqZ loc 1 then
                 for_shape d "node_nums" (fun i =>
                   txt "%10i\n" [at_ (ix d "node_nums") i] :: row13 (at_ (ix d "data_at_node") i)) ++ [end_line]
               else if py_eqZ loc 2 then
                 for_shape d "element_nums" (fun i =>
                   txt "%10i%10i\n" [at_ (ix d "element_nums") i; len_arg (at_ (ix d "data_at_element") i)]
                   :: row13 (at_ (ix d "data_at_element") i)) ++ [end_line]
               else if py_eqZ loc 3 then
                 for_shape d "element_nums" (fun i =>
                   txt "%10i%10i%10i%10i\n"
                     (map (fun k => at_ (ix d k) i)
                        ["element_nums"; "IEXP"; "number_of_nodes"; "number_of_values_per_node"]%string)
                   :: match (do v <- at_ (ix d "data_at_nodes_on_element") i ;; to_seq v) with
                      | Err e => [WTxt (Err e)]
                      | Ok rows => flat_map (fun r => row13 (Ok r)) rows
                      end) ++ [end_line]
               else if py_eqZ loc 5 then []
               else [end_line]
           end
  end.
Definition write2414 (d : dict) : wplan :=
  let d1 := opt_fields d defaults2414 in
  {| wp_dict := d1;
     wp_items :=
       [ txt "%6i\n%6i\n" [I (-1); I 2414];
         txt "%10i\n" [ix d1 "analysis_dataset_label"];
         txt "%-80s\n" [ix d1 "analysis_dataset_name"];
         txt "%10i\n" [ix d1 "dataset_location"] ]
       ++ map (fun k => txt "%-80s\n" [ix d1 k]) ["id1"; "id2"; "id3"; "id4"; "id5"]%string
       ++ txt "%10i%10i%10i%10i%10i%10i\n" (map (ix d1) names9)
       :: body2414 d1;
     wp_wrap := wrap_plain "2414" |}.

(* ------------------------------------------------------------------ *)
(** ** Extractor *)

Definition w10 (n : nat) : list nat := repeat 10%nat n.
Definition recs2414_head : list hrec :=
  [ H 2 1 [80]%nat [2] ["analysis_dataset_label"]%string; H 3 1 [80]%nat [1] ["analysis_dataset_name"]%string;
    H 4 1 [80]%nat [2] ["dataset_location"]%string;
    H 5 1 [80]%nat [1] ["id1"]%string; H 6 1 [80]%nat [1] ["id2"]%string; H 7 1 [80]%nat [1] ["id3"]%string;
    H 8 1 [80]%nat [1] ["id4"]%string; H 9 1 [80]%nat [1] ["id5"]%string;
    H 10 6 (w10 6) [2;2;2;2;2;2] names9 ].
(** The field type 0.5 of the source falls in the float branch, as 3 does. *)
Definition recs2414_5 : list hrec :=
  [ H 11 8 (w10 8) (repeat 2 8) names10; H 12 2 (w10 2) [2;2] names11;
    H 13 6 (repeat 13%nat 6) (repeat 3 6) names12; H 14 6 (repeat 13%nat 6) (repeat 3 6) names13 ].
Definition recs2414_n : list hrec :=
  [ H 11 1 (w10 8) (repeat 2 8) (rec_names "10" 8); H 12 1 (w10 8) (repeat 2 8) (rec_names "11" 8);
    H 13 1 (repeat 13%nat 6) (repeat 3 6) (rec_names "12" 6); H 14 1 (repeat 13%nat 6) (repeat 3 6) (rec_names "13" 6) ].

(** [np.array(floats, dtype=int)]: truncation; NaN, infinities and values
    outside int64 are not modelled. *)
Definition np_trunc (l : list float) : result pyval :=
  do zs <- rmap (fun f => match py_int_of_float f with
                          | Ok z => if int64_ok z then Ok z else Err Unmodelled
                          | Err _ => Err Unmodelled
                          end) l ;;
  Ok (vints zs).

(** dataset_2414.py:757-775: frequency response data.  [a + b*1j] has the same
    components as [a + 1j*b].  A negative stride is not modelled. *)
Definition freq_data (d : dict) (toks : list str) : result dict :=
  do nv <- ix d "number_of_data_values_for_the_data_component" ;;
  do n <- match nv with VInt z => Ok z | _ => Err Unmodelled end ;;
  do dt <- ix d "data_type" ;;
  if py_eqZ dt 5 then
    do vs <- parse_floats toks ;;
    if n <? 0 then Err Unmodelled
    else
      let s := (Z.to_nat n * 2 + 1)%nat in
      do nums <- np_trunc (every 0 s vs) ;;
      do x <- np_cjoin (every 1 s vs) (every 2 s vs) ;;
      let d := dupdate d [(KS "node_nums", nums); (KS "x", x)] in
      do d <- (if 2 <=? n then do y <- np_cjoin (every 3 s vs) (every 4 s vs) ;; Ok (dput d (KS "y") y) else Ok d) ;;
      if 3 <=? n then do z <- np_cjoin (every 5 s vs) (every 6 s vs) ;; Ok (dput d (KS "z") z) else Ok d
  else Ok d.

(** Column [j] of [np.asarray(rows, 'U')] as integers: rows of equal length. *)
Definition str_column (rows : list (list str)) (j : nat) : result pyval :=
  match rows with
  | [] => Err IndexError
  | r :: _ =>
      if forallb (fun x => Nat.eqb (length x) (length r)) rows
      then do col <- rmap (fun x => ln x j) rows ;;
           do zs <- parse_ints col ;; do zs <- np_int_array zs ;; Ok (vints zs)
      else Err ValueError
  end.
Definition float_row (s : str) : result pyval := do fs <- parse_floats (split s) ;; Ok (vfloats fs).

(** dataset_2414.py:819-840: the loop over elements. *)
Record st3 := { s_el : list Z; s_ie : list Z; s_nn : list Z; s_nv : list Z; s_da : list pyval }.
Fixpoint loop2414 (fuel : nat) (lines : list str) (li : Z) (s : st3) : result st3 :=
  if li <? Z.of_nat (length lines) then
    match fuel with
    | O => Err OutOfFuel
    | S f =>
        do line <- py_nth lines li ;;
        let t := split line in
        do el <- tok_int t 0 ;;
        do ie <- tok_int t 1 ;;
        do nn <- tok_int t 2 ;;
        do nv <- tok_int t 3 ;;
        let k := if ie =? 1 then nn * ceil_div nv 6 else ceil_div nv 6 in
        do rows <- rmap float_row (py_slice (li + 1) (li + 1 + k) lines) ;;
        loop2414 f lines (li + 1 + k)
          {| s_el := s_el s ++ [el]; s_ie := s_ie s ++ [ie]; s_nn := s_nn s ++ [nn]; s_nv := s_nv s ++ [nv];
             s_da := s_da s ++ [VList rows] |}
    end
  else Ok s.

(** dataset_2414.py:794-848: data by location. *)
Definition loc_data (fuel : nat) (d : dict) (lines : list str) : result dict :=
  do loc <- ix d "dataset_location" ;;
  if py_eqZ loc 1 then
    do r15 <- rmap float_row (every 1 2 lines) ;;
    do nums <- str_column (map split (every 0 2 lines)) 0 ;;
    Ok (dupdate d [(KS "node_nums", nums); (KS "data_at_node", VList r15)])
  else if py_eqZ loc 2 then
    do r15 <- rmap float_row (every 1 2 lines) ;;
    do nums <- str_column (map split (every 0 2 lines)) 0 ;;
    do nd <- str_column (map split (every 0 2 lines)) 1 ;;
    Ok (dupdate d [(KS "element_nums", nums); (KS "NDVAL", nd); (KS "data_at_element", VList r15)])
  else if py_eqZ loc 3 then
    do s <- loop2414 fuel lines 0 {| s_el := []; s_ie := []; s_nn := []; s_nv := []; s_da := [] |} ;;
    do a <- np_int_array (s_el s) ;;
    do b <- np_int_array (s_ie s) ;;
    do c <- np_int_array (s_nn s) ;;
    do e <- np_int_array (s_nv s) ;;
    Ok (dupdate d [(KS "element_nums", vints a); (KS "IEXP", vints b); (KS "number_of_nodes", vints c);
                   (KS "number_of_values_per_node", vints e); (KS "data_at_nodes_on_element", VList (s_da s))])
  else Ok d.

(** dataset_2414.py:710-851 [_extract2414].  As for 2429 the visited line
    indices lie in [-n, n). *)
Definition extract2414_fuel (fuel : nat) (block : str) : result dict :=
  try_any
    (let lines := splitlines_str true block in
     let header := firstn 15 lines in
     do d <- header_recs header [(KS "type", VInt 2414)] recs2414_head ;;
     do at_v <- ix d "analysis_type" ;;
     let rest := join (skipn 15 lines) in
     if py_eqZ at_v 5 then
       do d <- header_recs header d recs2414_5 ;; freq_data d (split rest)
     else
       do d <- header_recs header d recs2414_n ;; loc_data fuel d (splitlines_str false rest))
    (read_error "2414").
Definition extract2414 (block : str) : result dict :=
  extract2414_fuel (2 * length (splitlines_str true block) + 2) block.
