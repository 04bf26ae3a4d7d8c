(** Model of pyuff/datasets/dataset_55.py (writer and extractor). *)
From Verif Require Import PyBase PyNum PyVal Utf8 Tools DsNodes DsHeaders.
Open Scope Z_scope.

(** dataset_55.py:378-383: [v + 0.j] unless [v] is complex already. *)
Definition add_0j (v : pyval) : result pyval :=
  do c <- np_iscomplex v ;;
  if c then Ok v
  else match v with
       | VInt _ | VFloat _ | VBool _ =>
           do f <- fmt_float_arg v ;; Ok (VCplx (f_add f f_zero) (f_add f_zero f_zero))
       | VArr _ _ | VArr2 _ _ => Err Unmodelled
       | _ => Err TypeError
       end.

(** dataset_55.py:360-391: defaults, depending on the analysis type. *)
Definition prep55 (d : dict) : dict * result Z :=
  let d0 := opt_fields d
    [(KS "units_description", VStr (lit " ")); (KS "id1", VStr (lit "NONE")); (KS "id2", VStr (lit "NONE"));
     (KS "id3", VStr (lit "NONE")); (KS "id4", VStr (lit "NONE")); (KS "id5", VStr (lit "NONE"));
     (KS "model_type", VInt 1)] in
  match ix d0 "analysis_type" with
  | Err e => (d0, Err e)
  | Ok at_v =>
      if py_eqZ at_v 2 then
        (opt_fields d0 [(KS "modal_m", VInt 0); (KS "modal_damp_vis", VInt 0); (KS "modal_damp_his", VInt 0)], Ok 2)
      else if py_eqZ at_v 3 || py_eqZ at_v 7 then
        let z := VCplx f_zero f_zero in
        let d1 := opt_fields d0 [(KS "modal_b", z); (KS "modal_a", z)] in
        match (do v <- ix d1 "modal_a" ;; add_0j v) with
        | Err e => (d1, Err e)
        | Ok a =>
            let d2 := dput d1 (KS "modal_a") a in
            match (do v <- ix d2 "modal_b" ;; add_0j v) with
            | Err e => (d2, Err e)
            | Ok b => (dput d2 (KS "modal_b") b, Ok (if py_eqZ at_v 3 then 3 else 7))
            end
        end
      else if py_eqZ at_v 5 then (d0, Ok 5)
      else (d0, Err ValueError)
  end.

(** dataset_55.py:413-432: records 7 and 8. *)
Definition recs7_8 (d : dict) (at_ty : Z) : list item :=
  if at_ty =? 2 then
    [ txt "%10i%10i%10i%10i\n" [I 2; I 4; ix d "load_case"; ix d "mode_n"];
      txt "%13.5e%13.5e%13.5e%13.5e\n" [ix d "freq"; ix d "modal_m"; ix d "modal_damp_vis"; ix d "modal_damp_his"] ]
  else if at_ty =? 5 then
    [ txt "%10i%10i%10i%10i\n" [I 2; I 1; ix d "load_case"; ix d "freq_step_n"];
      txt "%13.5e\n" [ix d "freq"] ]
  else
    [ txt "%10i%10i%10i%10i\n" [I 2; I 6; ix d "load_case"; ix d "mode_n"];
      txt "%13.5e%13.5e%13.5e%13.5e%13.5e%13.5e\n"
        [real_of (ix d "eig"); imag_of (ix d "eig"); real_of (ix d "modal_a"); imag_of (ix d "modal_a");
         real_of (ix d "modal_b"); imag_of (ix d "modal_b")] ].

(** dataset_55.py:433-452: one node. *)
Definition node55 (d : dict) (cplx six : bool) (k : Z) : list item :=
  let r n := at_ (ix d n) k in
  [ txt "%10i\n" [r "node_nums"%string];
    if cplx then
      txt "%13.5e%13.5e%13.5e%13.5e%13.5e%13.5e\n"
        [real_of (r "r1"%string); imag_of (r "r1"%string); real_of (r "r2"%string); imag_of (r "r2"%string);
         real_of (r "r3"%string); imag_of (r "r3"%string)]
    else if six then
      txt "%13.5e%13.5e%13.5e%13.5e%13.5e%13.5e\n" (map r ["r1"; "r2"; "r3"; "r4"; "r5"; "r6"]%string)
    else txt "%13.5e%13.5e%13.5e\n" (map r ["r1"; "r2"; "r3"]%string) ].

(** dataset_55.py:351-455 [_write55] *)
Definition write55 (d : dict) : wplan :=
  let (d1, rt) := prep55 d in
  let items :=
    match rt with
    | Err e => [WTxt (Err e)]
    | Ok at_ty =>
        let six := dmem d1 (KS "r4") && dmem d1 (KS "r5") && dmem d1 (KS "r6") in
        match (do v <- ix d1 "r1" ;; np_iscomplex v) with
        | Err e => [WTxt (Err e)]
        | Ok cplx =>
            hdr_lines 55
            :: map (fun k => txt "%-80s\n" [ix d1 k]) ["id1"; "id2"; "id3"; "id4"; "id5"]%string
            ++ txt "%10i%10i%10i%10i%10i%10i\n"
                 [ix d1 "model_type"; ix d1 "analysis_type"; ix d1 "data_ch"; ix d1 "spec_data_type";
                  I (if cplx then 5 else 2); I (if six then 6 else 3)]
            :: recs7_8 d1 at_ty
            ++ match (do v <- ix d1 "node_nums" ;; py_len v) with
               | Err e => [WTxt (Err e)]
               | Ok n => flat_map (node55 d1 cplx six) (map Z.of_nat (seq 0 n)) ++ [end_line]
               end
        end
    end in
  {| wp_dict := d1; wp_items := items; wp_wrap := wrap_write "55" |}.

(** Removal of a key, [del dset[k]]. *)
Definition ddel (d : dict) (k : key) : dict := filter (fun kv => negb (key_eqb k (fst kv))) d.
Definition get_float (d : dict) (k : string) : result float :=
  do v <- ix d k ;; match v with VFloat f => Ok f | _ => Err Unmodelled end.
Definition cjoin_keys (d : dict) (dst re im : string) : result dict :=
  do a <- get_float d re ;; do b <- get_float d im ;; Ok (dput d (KS dst) (vcjoin a b)).

(** dataset_55.py:478-508: records 7 and 8 by analysis type. *)
Definition names78 (last : string) : list string := [""; ""; "load_case"; last; ""; ""; ""; ""]%string.
Definition read7_8 (lines : list str) (d : dict) : result dict :=
  do at_v <- ix d "analysis_type" ;;
  let w8 := [10;10;10;10;10;10;10;10]%nat in
  let t8 := [-1;-1;2;2;-1;-1;-1;-1] in
  let w6 := [13;13;13;13;13;13]%nat in
  if py_eqZ at_v 2 then
    header_recs lines d
      [ H 8 4 w8 t8 (names78 "mode_n");
        H 9 4 w6 [3;3;3;3;-1;-1] ["freq"; "modal_m"; "modal_damp_vis"; "modal_damp_his"; ""; ""]%string ]
  else if py_eqZ at_v 3 || py_eqZ at_v 7 then
    do d <- header_recs lines d
      [ H 8 4 w8 t8 (names78 "mode_n");
        H 9 4 w6 [3;3;3;3;3;3] ["eig_r"; "eig_i"; "modal_a_r"; "modal_a_i"; "modal_b_r"; "modal_b_i"]%string ] ;;
    do d <- cjoin_keys d "modal_a" "modal_a_r" "modal_a_i" ;;
    do d <- cjoin_keys d "modal_b" "modal_b_r" "modal_b_i" ;;
    do d <- cjoin_keys d "eig" "eig_r" "eig_i" ;;
    Ok (fold_left (fun a k => ddel a (KS k))
          ["modal_a_r"; "modal_a_i"; "modal_b_r"; "modal_b_i"; "eig_r"; "eig_i"]%string d)
  else if py_eqZ at_v 5 then
    header_recs lines d
      [ H 8 4 w8 t8 (names78 "freq_step_n");
        H 9 1 w6 [3;-1;-1;-1;-1;-1] ["freq"; ""; ""; ""; ""; ""]%string ]
  else Ok d.

(** [np.array(rows_of_strings, 'd').flatten()]: rows must have equal length. *)
Definition np_rows (rows : list (list str)) : result (list float) :=
  do fs <- rmap parse_floats rows ;;
  match fs with
  | [] => Ok []
  | r :: _ => if forallb (fun x => Nat.eqb (length x) (length r)) fs then Ok (concat fs) else Err ValueError
  end.
(** [np.asarray(list_of_ints)]; the empty list gives a float array. *)
Definition np_int_list (l : list Z) : pyval :=
  match l with [] => VArr DFloat [] | _ => vints l end.

(** dataset_55.py:458-538 [_extract55] *)
Definition extract55 (block : str) : result dict :=
  try_any
    (let lines := splitlines_str true block in
     do d <- header_recs lines [(KS "type", VInt 55)]
       [ H 2 1 [80]%nat [1] ["id1"]%string; H 3 1 [80]%nat [1] ["id2"]%string; H 4 1 [80]%nat [1] ["id3"]%string;
         H 5 1 [80]%nat [1] ["id4"]%string; H 6 1 [80]%nat [1] ["id5"]%string;
         H 7 6 [10;10;10;10;10;10]%nat [2;2;2;2;2;2]
           ["model_type"; "analysis_type"; "data_ch"; "spec_data_type"; "data_type"; "n_data_per_node"]%string ] ;;
     do d <- read7_8 lines d ;;
     let body := splitlines_str true (join (skipn 10 lines)) in
     do nums <- parse_ints (every 0 2 body) ;;
     do vals <- np_rows (map (fun s => chop 13 (length s / 13) s) (every 1 2 body)) ;;
     do dt <- ix d "data_type" ;;
     do nd <- ix d "n_data_per_node" ;;
     let d := dput d (KS "node_nums") (np_int_list nums) in
     if py_eqZ dt 2 then
       if py_eqZ nd 3 then
         Ok (dupdate d [(KS "r1", vfloats (every 0 3 vals)); (KS "r2", vfloats (every 1 3 vals));
                        (KS "r3", vfloats (every 2 3 vals))])
       else
         Ok (dupdate d [(KS "r1", vfloats (every 0 6 vals)); (KS "r2", vfloats (every 1 6 vals));
                        (KS "r3", vfloats (every 2 6 vals)); (KS "r4", vfloats (every 3 6 vals));
                        (KS "r5", vfloats (every 4 6 vals)); (KS "r6", vfloats (every 5 6 vals))])
     else if py_eqZ dt 5 then
       if py_eqZ nd 3 then
         do r1 <- np_cjoin (every 0 6 vals) (every 1 6 vals) ;;
         do r2 <- np_cjoin (every 2 6 vals) (every 3 6 vals) ;;
         do r3 <- np_cjoin (every 4 6 vals) (every 5 6 vals) ;;
         Ok (dupdate d [(KS "r1", r1); (KS "r2", r2); (KS "r3", r3)])
       else Err (PyException "Cannot handle 6 points per node and complex data when reading data-set #55")
     else Err (PyException "Error reading data-set #55"))
    (read_error "55").
