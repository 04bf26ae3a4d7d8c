(** Round trips of nodes (15, 2411), coordinate systems (18, 2420) and trace
    lines (82).

    [round_trips c m fd ho d out] (Stored.v): for every file that ends in a line
    break and has an even number of delimiters, and every state of the object,
    [write_sets [d]] in mode [m] succeeds, keeps the old bytes (mode add), and
    read_sets of the next index returns [out]; get_n_sets counts one more.
    [reprN d r]: the dictionary [d] holds the record [r] (in any of the value
    forms the writer accepts; optional entries may be missing).
    [wfN r]: the values fit their columns.  [readN r]: the dictionary read back. *)
From Coq Require Import String List NArith ZArith Bool Lia.
Import ListNotations.
From Verif Require Import PyBase PyNum PyVal Utf8 Tools DsNodes DsHeaders Uff FloatText Lines Stored Cells Rows RtNodes RtCs Witness.
Open Scope string_scope.
Open Scope list_scope.
Open Scope nat_scope.

(* ------------------------------------------------------------------ *)
(** C23 *)
Theorem C23_round_trip_15 : forall c m fd ho d l, repr15 d l -> wf15 l -> round_trips c m fd ho d (read15 l).
Proof. intros. eapply text_set_round, set15; eassumption. Qed.
Print Assumptions C23_round_trip_15.
(** Missing def_cs, disp_cs, color: zeros. *)
Theorem C23_defaults_15 : forall c m fd ho d l, node_dict 15 as_num d l -> wf15 l ->
  dget d (KS "def_cs") = None -> dget d (KS "disp_cs") = None -> dget d (KS "color") = None ->
  Forall (fun n => n_def n = 0%Z /\ n_disp n = 0%Z /\ n_color n = 0%Z) l ->
  round_trips c m fd ho d (read15 l) /\
  dget (read15 l) (KS "def_cs") = Some (VList (repeat (VFloat f_zero) (length l))) /\
  dget (read15 l) (KS "disp_cs") = Some (VList (repeat (VFloat f_zero) (length l))) /\
  dget (read15 l) (KS "color") = Some (VList (repeat (VFloat f_zero) (length l))).
Proof.
  intros c m fd ho d l Hd Hw H1 H2 H3 H0.
  assert (E : forall f, (f = n_def \/ f = n_disp \/ f = n_color) -> map f l = repeat 0%Z (length l)).
  { intros f Hf. clear -H0 Hf. induction H0 as [|n l (Ha & Hb & Hc) _ IH]; [reflexivity|]. cbn [map length repeat]. rewrite IH.
    destruct Hf as [->|[->| ->]]; congruence. }
  assert (F : forall f, (f = n_def \/ f = n_disp \/ f = n_color) ->
    vlist_f (map (fun n => float_of_Z (f n)) l) = VList (repeat (VFloat f_zero) (length l))).
  { intros f Hf. rewrite <- (map_map f float_of_Z), (E f Hf). unfold vlist_f. f_equal. clear. induction (length l) as [|k IH]; [reflexivity|].
    cbn [repeat map]. rewrite IH. reflexivity. }
  split; [|cbn; rewrite !F by auto; auto].
  apply C23_round_trip_15; [|assumption]. split; [assumption|]. split; [|split]; right; (split; [assumption|apply E; auto]).
Qed.
Print Assumptions C23_defaults_15.

Definition d15 : dict := Eval vm_compute in
  [(KS "type", VInt 15); (KS "node_nums", VArr DInt [VInt 16; VInt 123456789; VInt (-7)]);
   (KS "def_cs", VList [VInt 11; VInt 11; VInt 12]); (KS "color", VArr DFloat [fv "1.0"; fv "2.0"; fv "0.0"]);
   (KS "x", VArr DFloat [fv "1.53"; fv "-0.0"; fv "1e-300"]); (KS "y", VList [VInt 0; fv "-2.123456789"; fv "inf"]);
   (KS "z", VArr DFloat [fv "0.1"; fv "1e300"; fv "-999999.5"])].
Definition r15 : list node := Eval vm_compute in
  [ {| n_num := 16; n_def := 11; n_disp := 0; n_color := 1; n_x := fl "1.53"; n_y := fl "0"; n_z := fl "0.1" |};
    {| n_num := 123456789; n_def := 11; n_disp := 0; n_color := 2; n_x := fl "-0.0"; n_y := fl "-2.123456789"; n_z := fl "1e300" |};
    {| n_num := -7; n_def := 12; n_disp := 0; n_color := 0; n_x := fl "1e-300"; n_y := fl "inf"; n_z := fl "-999999.5" |} ].
Example C23_example : repr15 d15 r15 /\ wf15 r15.
Proof.
  unfold repr15, node_dict, wf15, r15. split; [split|].
  - wit.
  - wit.
  - cbn [n_num n_def n_disp n_color n_x n_y n_z]. wit.
Qed.
Definition d15' : dict := [(KS "type", VInt 15); (KS "node_nums", VList [VInt 5]); (KS "x", VList [fv "1"]); (KS "y", VList [fv "2"]); (KS "z", VList [fv "3"])].
Definition r15' : list node := [{| n_num := 5; n_def := 0; n_disp := 0; n_color := 0; n_x := fl "1"; n_y := fl "2"; n_z := fl "3" |}].
Example C23_defaults_example : node_dict 15 as_num d15' r15' /\ wf15 r15' /\
  dget d15' (KS "def_cs") = None /\ dget d15' (KS "disp_cs") = None /\ dget d15' (KS "color") = None.
Proof. unfold node_dict, wf15, r15'. wit; cbn [n_num n_def n_disp n_color n_x n_y n_z]; wit. Qed.

(* ------------------------------------------------------------------ *)
(** C24 *)
Theorem C24_round_trip_18 : forall c m fd ho d l, repr18 d l -> wf18 l -> round_trips c m fd ho d (read18 l).
Proof. intros. eapply text_set_round, set18; eassumption. Qed.
Print Assumptions C24_round_trip_18.
Definition d18 : dict := Eval vm_compute in
  [(KS "type", VInt 18); (KS "cs_num", VList [VInt 1; VInt 2]); (KS "ref_cs_num", VArr DFloat [fv "0.0"; fv "1.0"]);
   (KS "color", VList [VInt 8; VInt (-3)]); (KS "cs_name", VList [VStr (lit "axis one"); VStr (lit " b")]);
   (KS "ref_o", VArr2 DFloat [[fv "0"; fv "1"; fv "2"]; [fv "-1.5"; fv "1e-10"; fv "3"]]);
   (KS "x_point", VList [VList [VInt 1; VInt 0; VInt 0]; VArr DFloat [fv "1"; fv "-1e-110"; fv "0"]]);
   (KS "xz_point", VArr2 DFloat [[fv "0"; fv "1"; fv "2"]; [fv "0"; fv "1"; fv "-1e200"]])].
Definition r18 : list cs18 := Eval vm_compute in
  [ {| c_num := 1; c_type := 0; c_ref := 0; c_color := 8; c_method := 1; c_name := lit "axis one";
       c_o := (fl "0", fl "1", fl "2"); c_x := (fl "1", fl "0", fl "0"); c_xz := (fl "0", fl "1", fl "2") |};
    {| c_num := 2; c_type := 0; c_ref := 1; c_color := -3; c_method := 1; c_name := lit " b";
       c_o := (fl "-1.5", fl "1e-10", fl "3"); c_x := (fl "1", fl "-1e-110", fl "0"); c_xz := (fl "0", fl "1", fl "-1e200") |} ].
Ltac wit_pts := eexists; split; [vm_compute; reflexivity|]; eexists; split; [vm_compute; reflexivity|];
  repeat (constructor; [eexists; split; [vm_compute; reflexivity|]; repeat (constructor; [vm_compute; reflexivity|]); constructor|]); constructor.
Example C24_example : repr18 d18 r18 /\ wf18 r18.
Proof.
  unfold repr18, wf18. split.
  - do 8 (split; [wit1|]); try (split; [wit_pts|split; wit_pts]); wit.
  - unfold r18. wit; cbn [c_num c_type c_ref c_color c_method c_name c_o c_x c_xz]; unfold ptv, pt_list; wit.
Qed.

(* ------------------------------------------------------------------ *)
(** C34 *)
Theorem C34_round_trip_82 : forall c m fd ho d t, repr82 d t -> wf82 t -> round_trips c m fd ho d (read82 t).
Proof. intros. eapply text_set_round, set82; eassumption. Qed.
Print Assumptions C34_round_trip_82.
(** For an integer array, [steps] says that neighbouring nodes differ. *)
Theorem C34_steps_int : forall l, (forall i a b, nth_error l i = Some a -> nth_error l (S i) = Some b -> a <> b) -> steps (map VInt l).
Proof.
  induction l as [|a l IH]; intro H; [exact Logic.I|]. destruct l as [|b l]; [exact Logic.I|].
  cbn [map steps]. split.
  - unfold differ. rewrite Bool.negb_true_iff. apply Z.eqb_neq. intro E. apply (H 0 a b eq_refl eq_refl). lia.
  - apply IH. intros i x y Hx Hy. exact (H (S i) x y Hx Hy).
Qed.
Print Assumptions C34_steps_int.
Definition t82 : trace :=
  {| t_num := 2; t_color := 30; t_id := lit "Identification line"; t_nodes := [1; 2; 0; 3; 4; 0; 5; 6; 0; 999999999; 0; -12]%Z |}.
Definition d82 : dict :=
  [(KS "type", VInt 82); (KS "trace_num", VInt 2); (KS "color", VInt 30); (KS "id", VStr (lit "Identification line"));
   (KS "n_nodes", VInt 12); (KS "nodes", VArr DInt (map VInt (t_nodes t82)))].
Example C34_example : repr82 d82 t82 /\ wf82 t82.
Proof.
  split.
  - unfold repr82. do 5 (split; [wit1|]). exists DInt, (map VInt (t_nodes t82)). split; [reflexivity|]. split; [left; reflexivity|]. split.
    + repeat constructor.
    + repeat constructor.
  - unfold wf82. cbn [t_num t_color t_id t_nodes t82 length]. wit.
Qed.

(** C35: nine nodes with one repeated neighbour; the ninth node is not written. *)
Definition d82r : dict :=
  [(KS "type", VInt 82); (KS "trace_num", VInt 1); (KS "nodes", VArr DInt (map VInt [1; 2; 2; 3; 4; 5; 6; 7; 8]%Z))].
Theorem C35_all_nodes_refuted : exists f u d,
  write_sets noclock None uff0 [d82r] (lit "add") true = (Some f, u, None) /\
  read_sets (Some f) u (SelOne 0) false = Ok (u, One d) /\
  dget d (KS "nodes") = Some (VArr DFloat (map (fun z => VFloat (float_of_Z z)) [1; 2; 2; 3; 4; 5; 6; 7]%Z)).
Proof. eexists _, _, _. split; [vm_compute; reflexivity|]. split; vm_compute; reflexivity. Qed.
Print Assumptions C35_all_nodes_refuted.

(* ------------------------------------------------------------------ *)
(** C42: the coordinates come back bit for bit. *)
Theorem C42_round_trip_2411 : forall c m fd ho d l, repr2411 d l -> wf2411 l -> round_trips c m fd ho d (read2411 l).
Proof. intros. eapply text_set_round, set2411; eassumption. Qed.
Print Assumptions C42_round_trip_2411.
Definition d2411 : dict := Eval vm_compute in
  [(KS "type", VInt 2411); (KS "node_nums", VArr DFloat [fv "16"; fv "1234567890"; fv "-7"]);
   (KS "def_cs", VList [VInt 11; VInt 11; VInt 12]); (KS "disp_cs", VList [VInt 0; VInt 0; VInt (-1)]);
   (KS "color", VArr DFloat [fv "1.0"; fv "2.0"; fv "0.0"]);
   (KS "x", VArr DFloat [fv "1.53"; fv "-0.0"; fv "-4.9e-324"]); (KS "y", VList [VInt 0; fv "-2.1234567890123456"; fv "inf"]);
   (KS "z", VArr DFloat [fv "0.1"; fv "-1.7976931348623157e308"; fv "-999999.5"])].
Definition r2411 : list node := Eval vm_compute in
  [ {| n_num := 16; n_def := 11; n_disp := 0; n_color := 1; n_x := fl "1.53"; n_y := fl "0"; n_z := fl "0.1" |};
    {| n_num := 1234567890; n_def := 11; n_disp := 0; n_color := 2; n_x := fl "-0.0"; n_y := fl "-2.1234567890123456"; n_z := fl "-1.7976931348623157e308" |};
    {| n_num := -7; n_def := 12; n_disp := -1; n_color := 0; n_x := fl "-4.9e-324"; n_y := fl "inf"; n_z := fl "-999999.5" |} ].
Example C42_example : repr2411 d2411 r2411 /\ wf2411 r2411.
Proof.
  unfold repr2411, node_dict, wf2411, r2411. split; [split|].
  - wit.
  - wit.
  - cbn [n_num n_def n_disp n_color n_x n_y n_z]. wit.
Qed.

(* ------------------------------------------------------------------ *)
(** C48 *)
Theorem C48_round_trip_2420 : forall c m fd ho d p, repr2420 d p -> wf2420 p -> round_trips c m fd ho d (read2420 p).
Proof. intros. eapply text_set_round, set2420; eassumption. Qed.
Print Assumptions C48_round_trip_2420.
Definition d2420 : dict := Eval vm_compute in
  [(KS "type", VInt 2420); (KS "Part_UID", VInt 7); (KS "CS_sys_labels", VList [VInt 1; VInt 2]);
   (KS "CS_types", VList [VInt 0; VInt 1]); (KS "CS_colors", VList [VInt 8; VInt 9]);
   (KS "CS_names", VList [VStr (lit "global"); VStr (lit "cyl 1 ")]);
   (KS "CS_matrices", VList
     [VArr2 DFloat [[fv "1"; fv "0"; fv "0"]; [fv "0"; fv "1"; fv "0"]; [fv "0"; fv "0"; fv "1"]; [fv "0"; fv "0"; fv "0"]];
      VArr2 DFloat [[fv "0.1"; fv "-0.3"; fv "1e-310"]; [fv "0"; fv "1"; fv "0"]; [fv "0"; fv "0"; fv "1"]; [fv "-1e308"; fv "0"; fv "-0.0"]]])].
Definition p2420 : part := Eval vm_compute in
  {| p_uid := 7; p_name := lit "None";
     p_cs := [ {| s_label := 1; s_type := 0; s_color := 8; s_name := lit "global";
                  s_mat := ((fl "1", fl "0", fl "0"), (fl "0", fl "1", fl "0"), (fl "0", fl "0", fl "1"), (fl "0", fl "0", fl "0")) |};
               {| s_label := 2; s_type := 1; s_color := 9; s_name := lit "cyl 1 ";
                  s_mat := ((fl "0.1", fl "-0.3", fl "1e-310"), (fl "0", fl "1", fl "0"), (fl "0", fl "0", fl "1"), (fl "-1e308", fl "0", fl "-0.0")) |} ] |}.
Example C48_example : repr2420 d2420 p2420 /\ wf2420 p2420.
Proof.
  split.
  - unfold repr2420. do 8 (split; [wit1|]). eexists; split; [vm_compute; reflexivity|]. eexists; split; [reflexivity|].
    repeat (constructor; [eexists _, _; split; [reflexivity|]; repeat (constructor; [repeat constructor|]); constructor|]). constructor.
  - unfold wf2420, p2420. cbn [p_uid p_name p_cs]. wit; cbn [s_label s_type s_color s_name s_mat]; unfold matv, mat_rows; cbn [map pt_list]; wit.
Qed.
(** The defaults for CS_types and CS_colors are one entry long: without them, a
    set of two systems is rejected after its first lines are in the file. *)
Theorem C48_defaults_refuted : exists f u e,
  write_sets noclock None uff0 [filter (fun kv => negb (key_eqb (fst kv) (KS "CS_types"))) d2420] (lit "add") true = (Some f, u, Some e) /\ f <> [].
Proof. eexists _, _, _. split; [vm_compute; reflexivity|discriminate]. Qed.
Print Assumptions C48_defaults_refuted.
