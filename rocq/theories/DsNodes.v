(** Models of pyuff/datasets/dataset_15.py, dataset_18.py, dataset_82.py,
    dataset_2411.py, dataset_2420.py (writers and extractors). *)
From Verif Require Import PyBase PyNum PyVal Utf8 Tools.
Open Scope Z_scope.

Definition zeros (n : nat) : pyval := VArr DInt (repeat (VInt 0) n).
Definition vlist_f (l : list float) : pyval := VList (map VFloat l).
Definition hdr_lines (n : Z) : item := txt "%6i\n%6i%74s\n" [I (-1); I n; Sv " "].
Definition end_line : item := txt "%6i\n" [I (-1)].

(* ------------------------------------------------------------------ *)
(** ** 15 *)

(** dataset_15.py:33-34 FORMATS[0]: 4 x '10.0f', 3 x '13.5E'. *)
Definition FORMATS15 : list ffmt := [F0 10; F0 10; F0 10; F0 10; FE 13 5; FE 13 5; FE 13 5].

(** dataset_15.py:48-51, one node. *)
Definition rec15 (d : dict) (i : Z) : item :=
  WTxt (write_record
    (map (fun k => at_ (ix d k) i) ["node_nums"; "def_cs"; "disp_cs"; "color"; "x"; "y"; "z"]%string)
    FORMATS15 false).

(** dataset_15.py:36-56 [_write15] *)
Definition write15 (d : dict) : wplan :=
  match (do v <- ix d "node_nums" ;; py_len v) with
  | Err e => {| wp_dict := d; wp_items := [WTxt (Err e)]; wp_wrap := wrap_write "15" |}
  | Ok n =>
      let d1 := opt_fields d [(KS "def_cs", zeros n); (KS "disp_cs", zeros n); (KS "color", zeros n)] in
      {| wp_dict := d1;
         wp_items :=
           WTxt (write_record [I (-1); I 15] [F0 6; F0 6] true)
           :: map (rec15 d1) (map Z.of_nat (seq 0 n))
           ++ [WTxt (write_record [I (-1)] [F0 6] false)];
         wp_wrap := wrap_write "15" |}
  end.

(** dataset_15.py:59-77 [_extract15]; the values are Python lists of floats. *)
Definition extract15 (block : str) : result dict :=
  try_any
    (let toks := split (join (skipn 2 (splitlines_str false block))) in
     do vs <- parse_floats toks ;;
     Ok [(KS "type", VInt 15);
         (KS "node_nums", vlist_f (every 0 7 vs));
         (KS "def_cs", vlist_f (every 1 7 vs));
         (KS "disp_cs", vlist_f (every 2 7 vs));
         (KS "color", vlist_f (every 3 7 vs));
         (KS "x", vlist_f (every 4 7 vs));
         (KS "y", vlist_f (every 5 7 vs));
         (KS "z", vlist_f (every 6 7 vs))])
    (read_error "15").

(* ------------------------------------------------------------------ *)
(** ** 18 *)

(** dataset_18.py:57-68, one coordinate system; [int(v)] is applied to the
    integers before formatting. *)
Definition int_arg (r : result pyval) : result pyval := do v <- r ;; do z <- to_int v ;; Ok (VInt z).
Definition rec18 (d : dict) (i : Z) : list item :=
  let c k j := at_ (at_ (ix d k) i) j in
  [ txt "%10i%10i%10i%10i%10i\n"
      (map (fun k => int_arg (at_ (ix d k) i)) ["cs_num"; "cs_type"; "ref_cs_num"; "color"; "method"]%string);
    txt "%-40s\n" [at_ (ix d "cs_name") i];
    txt "%13.5e%13.5e%13.5e%13.5e%13.5e%13.5e\n"
      [c "ref_o"%string 0; c "ref_o"%string 1; c "ref_o"%string 2;
       c "x_point"%string 0; c "x_point"%string 1; c "x_point"%string 2];
    txt "%13.5e%13.5e%13.5e\n" [c "xz_point"%string 0; c "xz_point"%string 1; c "xz_point"%string 2] ].

(** dataset_18.py:45-73 [_write18] *)
Definition write18 (d : dict) : wplan :=
  match (do v <- ix d "cs_num" ;; py_len v) with
  | Err e => {| wp_dict := d; wp_items := [WTxt (Err e)]; wp_wrap := wrap_write "18" |}
  | Ok n =>
      let d1 := opt_fields d
        [(KS "cs_type", zeros n); (KS "color", zeros n);
         (KS "method", VArr DInt (repeat (VInt 1) n));
         (KS "cs_name", VList (repeat (VStr []) n))] in
      {| wp_dict := d1;
         wp_items := hdr_lines 18 :: flat_map (rec18 d1) (map Z.of_nat (seq 0 n)) ++ [end_line];
         wp_wrap := wrap_write "18" |}
  end.

(** [[float(s[i*w:(i+1)*w]) for i in range(int(len(s)/w))]] *)
Fixpoint chop (w : nat) (n : nat) (s : str) : list str :=
  match n with
  | O => []
  | S n' => firstn w s :: chop w n' (skipn w s)
  end.
Definition fixed_floats (w : nat) (s : str) : result (list float) :=
  parse_floats (chop w (length s / w) s).

(** [np.vstack((a, b, c)).transpose()]: the three must have equal lengths. *)
Fixpoint zip3 {A} (a b c : list A) : list (list A) :=
  match a, b, c with
  | x :: a', y :: b', z :: c' => [x; y; z] :: zip3 a' b' c'
  | _, _, _ => []
  end.
Definition stack3T (a b c : list float) : result pyval :=
  if Nat.eqb (length a) (length b) && Nat.eqb (length b) (length c)
  then Ok (VArr2 DFloat (map (map VFloat) (zip3 a b c)))
  else Err ValueError.

(** dataset_18.py:76-115 [_extract18] *)
Definition extract18 (block : str) : result dict :=
  try_any
    (let lines := splitlines_str false block in
     do r1 <- parse_floats (split (join (every 2 4 lines))) ;;
     do r31 <- fixed_floats 13 (join (every 4 4 lines)) ;;
     do ref_o <- stack3T (every 0 6 r31) (every 1 6 r31) (every 2 6 r31) ;;
     do x_point <- stack3T (every 3 6 r31) (every 4 6 r31) (every 5 6 r31) ;;
     do r32 <- fixed_floats 13 (join (every 5 4 lines)) ;;
     do xz <- stack3T (every 0 3 r32) (every 1 3 r32) (every 2 3 r32) ;;
     Ok [(KS "type", VInt 18);
         (KS "cs_num", vfloats (every 0 5 r1));
         (KS "cs_type", vfloats (every 1 5 r1));
         (KS "ref_cs_num", vfloats (every 2 5 r1));
         (KS "color", vfloats (every 3 5 r1));
         (KS "method", vfloats (every 4 5 r1));
         (KS "cs_name", VList (map (fun s => VStr (strip s)) (every 3 4 lines)));
         (KS "ref_o", ref_o); (KS "x_point", x_point); (KS "xz_point", xz)])
    (read_error "18").

(* ------------------------------------------------------------------ *)
(** ** 82 *)

(** dataset_82.py:56 [(a[1:] - a[:-1]) != 0] for two neighbouring elements.
    int64 wrap-around does not change whether a difference is zero. *)
Definition differ (a b : pyval) : bool :=
  match a, b with
  | VInt x, VInt y => negb (x =? y)
  | VFloat x, VFloat y => negb (f_eqb (f_sub x y) f_zero)
  | _, _ => true
  end.
Fixpoint changes (l : list pyval) : nat :=
  match l with
  | a :: (b :: _) as r => ((if differ b a then 1 else 0) + changes r)%nat
  | _ => 0%nat
  end.

(** Row of '%10i' fields, dataset_82.py:68, 71. *)
Definition row10 (l : list pyval) : item :=
  WTxt (do parts <- rmap (fun v => pct "%10i" [Ok v]) l ;; Ok (concat parts ++ [LF])).
(** dataset_82.py:65-69: [n] full rows of eight starting at the head. *)
Fixpoint rows8 (n : nat) (l : list pyval) : list item :=
  match n with
  | O => []
  | S n' => row10 (firstn 8 l) :: rows8 n' (skipn 8 l)
  end.

(** dataset_82.py:46-76 [_write82].  [nodes] must be a one-dimensional array:
    lists cannot be subtracted (TypeError); other arrays are not modelled. *)
Definition write82 (d : dict) : wplan :=
  let d1 := opt_fields d [(KS "id", VStr (lit "NONE")); (KS "color", VInt 0)] in
  let items :=
    match ix d1 "nodes" with
    | Err e => [WTxt (Err e)]
    | Ok (VArr dt nodes) =>
        match dt with
        | DInt | DFloat =>
            let n_nodes := (changes nodes + 1)%nat in
            hdr_lines 82
            :: txt "%10i%10i%10i\n" [ix d1 "trace_num"; I (Z.of_nat n_nodes); ix d1 "color"]
            :: txt "%-80s\n" [ix d1 "id"]
            :: rows8 (n_nodes / 8) nodes
            ++ (if Nat.ltb 0 (n_nodes mod 8) then [row10 (skipn (8 * (n_nodes / 8)) nodes)] else [])
            ++ [end_line]
        | _ => [WTxt (Err Unmodelled)]
        end
    | Ok (VArr2 _ _) => [WTxt (Err Unmodelled)]
    | Ok _ => [WTxt (Err TypeError)]
    end in
  {| wp_dict := d1; wp_items := items; wp_wrap := wrap_write "82" |}.

(** dataset_82.py:79-92 [_extract82] *)
Definition extract82 (block : str) : result dict :=
  try_any
    (let lines := splitlines_str true block in
     do l2 <- ln lines 2 ;;
     do h1 <- parse_header_line l2 3 [10;10;10]%nat [2;2;2] ["trace_num"; "n_nodes"; "color"]%string ;;
     do l3 <- ln lines 3 ;;
     do h2 <- parse_header_line l3 1 [80]%nat [1] ["id"]%string ;;
     do vs <- parse_floats (split (join (skipn 4 lines))) ;;
     Ok (dput (dupdate (dupdate [(KS "type", VInt 82)] h1) h2) (KS "nodes") (vfloats vs)))
    (read_error "82").

(* ------------------------------------------------------------------ *)
(** ** 2411 *)

(** dataset_2411.py:39-43, one node; [int()] is applied to the node label. *)
Definition rec2411 (d : dict) (p : Z * pyval) : list item :=
  let i := fst p in
  [ txt "%10i%10i%10i%10i\n"
      [int_arg (Ok (snd p)); at_ (ix d "def_cs") i; at_ (ix d "disp_cs") i; at_ (ix d "color") i];
    txt "%25.16e%25.16e%25.16e\n" [at_ (ix d "x") i; at_ (ix d "y") i; at_ (ix d "z") i] ].

(** dataset_2411.py:32-48 [_write2411] *)
Definition write2411 (d : dict) : wplan :=
  {| wp_dict := d;
     wp_items :=
       hdr_lines 2411
       :: match (do v <- ix d "node_nums" ;; to_seq v) with
          | Err e => [WTxt (Err e)]
          | Ok ns => flat_map (rec2411 d) (combine (map Z.of_nat (seq 0 (length ns))) ns) ++ [end_line]
          end;
     wp_wrap := wrap_plain "2411" |}.

(** 'D' and 'd' become 'E' (dataset_2411.py:59). *)
Definition d_to_E (s : str) : str := replace1 100 69 (replace1 68 69 s).

(** dataset_2411.py:51-70 [_extract2411] *)
Definition extract2411 (block : str) : result dict :=
  try_any
    (let toks := split (join (skipn 2 (splitlines_str true block))) in
     do vs <- parse_floats (map d_to_E toks) ;;
     Ok [(KS "type", VInt 2411);
         (KS "node_nums", vfloats (every 0 7 vs));
         (KS "def_cs", vfloats (every 1 7 vs));
         (KS "disp_cs", vfloats (every 2 7 vs));
         (KS "color", vfloats (every 3 7 vs));
         (KS "x", vfloats (every 4 7 vs));
         (KS "y", vfloats (every 5 7 vs));
         (KS "z", vfloats (every 6 7 vs))])
    (read_error "2411").

(* ------------------------------------------------------------------ *)
(** ** 2420 *)

(** [tuple(M[r, :])] of a two-dimensional array. *)
Definition mat_row (rv : result pyval) (r : Z) : list (result pyval) :=
  match (do v <- rv ;;
         match v with
         | VArr2 _ rows => py_nth rows r
         | VArr _ _ => Err IndexError
         | _ => Err TypeError
         end) with
  | Ok row => map Ok row
  | Err e => [Err e]
  end.

(** dataset_2420.py:67-73, one coordinate system. *)
Definition rec2420 (d : dict) (i : Z) : list item :=
  [ txt "%10i%10i%10i\n" [at_ (ix d "CS_sys_labels") i; at_ (ix d "CS_types") i; at_ (ix d "CS_colors") i];
    txt "%s\n" [at_ (ix d "CS_names") i];
    txt "%25.16e%25.16e%25.16e\n" (mat_row (at_ (ix d "CS_matrices") i) 0);
    txt "%25.16e%25.16e%25.16e\n" (mat_row (at_ (ix d "CS_matrices") i) 1);
    txt "%25.16e%25.16e%25.16e\n" (mat_row (at_ (ix d "CS_matrices") i) 2);
    txt "%25.16e%25.16e%25.16e\n" (mat_row (at_ (ix d "CS_matrices") i) 3) ].

(** dataset_2420.py:63-66: all lists must have as many entries as there are labels. *)
Definition check2420 (d : dict) : result nat :=
  do labels <- ix d "CS_sys_labels" ;;
  do n <- py_len labels ;;
  do vs <- rseq (map (ix d) ["CS_types"; "CS_colors"; "CS_names"; "CS_matrices"]%string) ;;
  do ls <- rmap py_len vs ;;
  if forallb (Nat.eqb n) ls then Ok n else Err IndexError.

(** dataset_2420.py:52-76 [_write2420] *)
Definition write2420 (d : dict) : wplan :=
  let d1 := opt_fields d [(KS "Part_UID", VInt 1); (KS "Part_Name", VStr (lit "None"));
                          (KS "CS_types", VList [VInt 0]); (KS "CS_colors", VList [VInt 8])] in
  {| wp_dict := d1;
     wp_items :=
       hdr_lines 2420 :: txt "%10i\n" [ix d1 "Part_UID"] :: txt "%-80s\n" [ix d1 "Part_Name"]
       :: match check2420 d1 with
          | Err e => [WTxt (Err e)]
          | Ok n => flat_map (rec2420 d1) (map Z.of_nat (seq 0 n)) ++ [end_line]
          end;
     wp_wrap := wrap_plain "2420" |}.

(** dataset_2420.py:100-101 [replace_d_float] *)
Definition d_to_e (s : str) : str := replace1 68 69 (replace1 100 101 s).

(** dataset_2420.py:106-107: the matrices; [np.vstack] needs rows of equal
    length.  [m] is the number of matrices left, ceil(len(row1)/3). *)
Fixpoint mats2420 (m : nat) (r1 r2 r3 r4 : list float) : result (list pyval) :=
  match m with
  | O => Ok []
  | S m' =>
      let a := firstn 3 r1 in let b := firstn 3 r2 in let c := firstn 3 r3 in let e := firstn 3 r4 in
      if Nat.eqb (length a) (length b) && Nat.eqb (length a) (length c) && Nat.eqb (length a) (length e)
      then do t <- mats2420 m' (skipn 3 r1) (skipn 3 r2) (skipn 3 r3) (skipn 3 r4) ;;
           Ok (VArr2 DFloat (map (map VFloat) [a; b; c; e]) :: t)
      else Err ValueError
  end.

(** dataset_2420.py:78-110 [_extract2420]; there is no exception wrapper. *)
Definition extract2420 (block : str) : result dict :=
  let lines := splitlines_str true block in
  do l2 <- ln lines 2 ;;
  do uid <- py_int l2 ;;
  do l3 <- ln lines 3 ;;
  do r3 <- parse_ints (split (join (every 4 6 lines))) ;;
  do row1 <- parse_floats (map d_to_e (split (join (every 6 6 lines)))) ;;
  do row2 <- parse_floats (map d_to_e (split (join (every 7 6 lines)))) ;;
  do row3 <- parse_floats (map d_to_e (split (join (every 8 6 lines)))) ;;
  do row4 <- parse_floats (map d_to_e (split (join (every 9 6 lines)))) ;;
  do mats <- mats2420 ((length row1 + 2) / 3) row1 row2 row3 row4 ;;
  Ok [(KS "type", VInt 2420);
      (KS "Part_UID", VInt uid);
      (KS "Part_Name", VStr (rstrip l3));
      (KS "CS_sys_labels", VList (map VInt (every 0 3 r3)));
      (KS "CS_types", VList (map VInt (every 1 3 r3)));
      (KS "CS_colors", VList (map VInt (every 2 3 r3)));
      (KS "CS_names", VList (map (fun s => VStr (rstrip s)) (every 5 6 lines)));
      (KS "CS_matrices", VList mats)].
