(** Analysis data (2414).  See PropNodes.v for the meaning of [round_trips],
    [reprN], [wfN], [readN]. *)
From Coq Require Import String List NArith ZArith Bool Lia.
Import ListNotations.
From Coq Require Import SpecFloat.
From Verif Require Import PyBase PyNum PyVal Utf8 Tools DsNodes DsHeaders DsGroups Ds55 Ds2414 Uff FloatFacts DecFacts FloatText CplxFacts Container Append Lines Stored Cells Rows RtHeads RtNodal RtAnalysis Witness.
Open Scope string_scope.
Open Scope list_scope.
Open Scope nat_scope.

(* ------------------------------------------------------------------ *)
(** C45: values at nodes, on elements, at the nodes of elements, and complex
    frequency responses with one to three components; any number of rows and of
    values per row.  [w11]: the reals of records 12 and 13 print in 11 characters;
    [w12]: the data values in at most 12 (see the refutations below). *)
Theorem C45_round_trip_2414 : forall c m fd ho d a, repr2414 d a -> wf2414 a -> round_trips c m fd ho d (read2414 a).
Proof. intros. eapply text_set_round, set2414; eassumption. Qed.
Print Assumptions C45_round_trip_2414.

Definition head2414 (loc an dt nv : Z) : dict :=
  [(KS "type", VInt 2414); (KS "analysis_dataset_label", VInt 1); (KS "analysis_dataset_name", VStr (lit "LC 1 : Nodal"));
   (KS "dataset_location", VInt loc); (KS "id1", VStr (lit "one")); (KS "id2", VStr (lit "")); (KS "id3", VStr (lit "Frequency 100 Hz"));
   (KS "id4", VStr (lit "NONE")); (KS "id5", VStr (lit "five")); (KS "model_type", VInt 2); (KS "analysis_type", VInt an);
   (KS "data_characteristic", VInt 3); (KS "result_type", VInt 8); (KS "data_type", VInt dt);
   (KS "number_of_data_values_for_the_data_component", VInt nv)].
Definition a2414 (loc an dt nv : Z) (r10 r11 : list Z) (r12 r13 : list float) (b : ana_body) : ana :=
  {| n_label := 1; n_name := lit "LC 1 : Nodal"; n_loc := loc; n_ids := map lit ["one"; ""; "Frequency 100 Hz"; "NONE"; "five"];
     n_model := 2; n_an := an; n_dc := 3; n_rt := 8; n_dt := dt; n_nv := nv; n_r10 := r10; n_r11 := r11; n_r12 := r12; n_r13 := r13; n_body := b |}.
Definition cv (a b : string) : pyval := VCplx (fl a) (fl b).
Definition ints (ks : list string) (l : list Z) : dict := combine (map KS ks) (map VInt l).
Definition reals (ks : list string) (l : list string) : dict := combine (map KS ks) (map fv l).
Definition d2414_freq : dict := Eval vm_compute in
  head2414 1 5 5 2 ++ ints keys10 [1; 2; 3; 4; 5; 6; 7; 8]%Z ++ ints keys11 [0; 1]%Z ++ reals keys12 ["0"; "100.5"; "1e20"; "0"; "2.5"; "0"] ++
  reals keys13 ["0"; "0"; "1e-20"; "0"; "0"; "0"] ++
  [(KS "node_nums", VArr DInt [VInt 29; VInt 1234567890]); (KS "x", VArr DCplx [cv "1.23456789" "-0.1"; cv "0" "-0"]);
   (KS "y", VArr DFloat [fv "-1"; fv "3"])].
Definition a2414_freq : ana := Eval vm_compute in
  a2414 1 5 5 2 [1; 2; 3; 4; 5; 6; 7; 8]%Z [0; 1]%Z (map fl ["0"; "100.5"; "1e20"; "0"; "2.5"; "0"]) (map fl ["0"; "0"; "1e-20"; "0"; "0"; "0"])
   (AFreq [(29, [fl "1.23456789"; fl "-0.1"; fl "-1"; fl "0"]); (1234567890, [fl "0"; fl "-0"; fl "3"; fl "0"])]%Z).
Definition zeros6 : list float := map fl ["0"; "0"; "0"; "0"; "0"; "0"].
Definition d2414_nodes : dict := Eval vm_compute in
  head2414 1 1 2 3 ++ [(KS "record10_field2", VInt 7); (KS "record12_field1", fv "0.25"); (KS "node_nums", VArr DInt [VInt 1; VInt 22]);
   (KS "data_at_node", VList [VArr DFloat [fv "-1.5"; fv "2"; fv "3"]; VList []])].
Definition a2414_nodes : ana := Eval vm_compute in
  a2414 1 1 2 3 [0; 7; 0; 0; 0; 0; 0; 0]%Z [0; 0; 0; 0; 0; 0; 0; 0]%Z (fl "0.25" :: skipn 1 zeros6) zeros6
   (ANodes [(1, [fl "-1.5"; fl "2"; fl "3"]); (22, [])]%Z).
Definition d2414_elems : dict := Eval vm_compute in
  head2414 2 1 2 3 ++ [(KS "element_nums", VArr DInt [VInt 1; VInt 22]);
   (KS "data_at_element", VArr2 DFloat [[fv "-1.5"; fv "2"]; [fv "1e99"; fv "nan"]])].
Definition a2414_elems : ana := Eval vm_compute in
  a2414 2 1 2 3 [0; 0; 0; 0; 0; 0; 0; 0]%Z [0; 0; 0; 0; 0; 0; 0; 0]%Z zeros6 zeros6
   (AElems [(1, [fl "-1.5"; fl "2"]); (22, [fl "1e99"; fl "nan"])]%Z).
Definition d2414_on : dict := Eval vm_compute in
  head2414 3 1 2 3 ++ [(KS "element_nums", VArr DInt [VInt 1; VInt 22]); (KS "IEXP", VArr DInt [VInt 1; VInt 2]); (KS "number_of_nodes", VList [VInt 2; VInt 4]);
   (KS "number_of_values_per_node", VArr DInt [VInt 3; VInt 7]);
   (KS "data_at_nodes_on_element", VList [VArr2 DFloat [[fv "-1.5"; fv "2"; fv "3"]; [fv "4"; fv "5"; fv "6"]];
      VList [VArr DFloat [fv "1"; fv "2"; fv "3"; fv "4"; fv "5"; fv "6"]; VArr DFloat [fv "7"]]])].
Definition a2414_on : ana := Eval vm_compute in
  a2414 3 1 2 3 [0; 0; 0; 0; 0; 0; 0; 0]%Z [0; 0; 0; 0; 0; 0; 0; 0]%Z zeros6 zeros6
   (AOn [{| o_num := 1; o_exp := 1; o_nodes := 2; o_per := 3; o_rows := [map fl ["-1.5"; "2"; "3"]; map fl ["4"; "5"; "6"]] |};
         {| o_num := 22; o_exp := 2; o_nodes := 4; o_per := 7; o_rows := [map fl ["1"; "2"; "3"; "4"; "5"; "6"]; map fl ["7"]] |}]).
Ltac wit_num := eexists; split; [vm_compute; reflexivity|]; split; [vm_compute; reflexivity|]; intros; reflexivity.
Ltac wit_field := match goal with |- field _ true _ _ _ _ => unfold field; wit1 | |- field _ false _ _ _ _ => unfold field; wit1 end.
Ltac wit_fields := repeat (constructor; [wit_field|]); constructor.
Ltac wit_arr := eexists; split; [vm_compute; reflexivity|]; split; [eexists _, _; reflexivity|]; wit_seq.
Ltac wit_deep := eexists; split; [vm_compute; reflexivity|];
  repeat (constructor; [match goal with |- seq_of _ _ _ => wit_deep | |- _ => vm_compute; reflexivity end|]); constructor.
Ltac repr2414_tac d a :=
  unfold repr2414, d, a; cbn [n_label n_name n_loc n_ids n_model n_an n_dc n_rt n_dt n_nv n_r10 n_r11 n_r12 n_r13 n_body repr_body is_freq k10 k11 k12 k13];
  split; [reflexivity|]; split; [reflexivity|]; split; [wit1|]; split; [wit1|]; split; [wit_num|];
  split; [unfold id_keys; repeat (constructor; [wit1|]); constructor|]; split; [wit1|]; split; [wit_num|];
  split; [wit1|]; split; [wit1|]; split; [wit1|]; split; [wit_num|];
  split; [wit_fields|]; split; [wit_fields|]; split; [wit_fields|]; split; [wit_fields|].
Ltac wf2414_tac a :=
  unfold wf2414, a; cbn [n_label n_name n_loc n_ids n_model n_an n_dc n_rt n_dt n_nv n_r10 n_r11 n_r12 n_r13 n_body wf_body kind_ok last];
  unfold w11, w12; split; [wit1|]; split; [wit|]; split; [wit|];
  split; [let Q := fresh in intro Q; cbn [In] in Q; repeat (destruct Q as [Q|Q]; [discriminate Q|]); contradiction|];
  split; [wit|]; split; [wit|]; split; [wit|]; split; [wit|]; split; [wit|]; split; [wit|].
Example C45_example_freq : repr2414 d2414_freq a2414_freq /\ wf2414 a2414_freq.
Proof.
  split.
  - repr2414_tac d2414_freq a2414_freq. split; [wit_arr|].
    split; [eexists; split; [vm_compute; reflexivity|]; wit_seq; split; vm_compute; reflexivity|].
    split; [intros _; eexists; split; [vm_compute; reflexivity|]; wit_seq; split; vm_compute; reflexivity|]. intro Q. lia.
  - wf2414_tac a2414_freq. split; [reflexivity|]. split; [lia|]. unfold w12; wit; vm_compute; lia.
Qed.
Example C45_example_nodes : repr2414 d2414_nodes a2414_nodes /\ wf2414 a2414_nodes.
Proof.
  split.
  - repr2414_tac d2414_nodes a2414_nodes. split; [wit_arr|].
    eexists; split; [vm_compute; reflexivity|]; wit_deep.
  - wf2414_tac a2414_nodes. split; [split; [discriminate|reflexivity]|]. split; [discriminate|]. unfold w12; wit; vm_compute; lia.
Qed.
Example C45_example_elems : repr2414 d2414_elems a2414_elems /\ wf2414 a2414_elems.
Proof.
  split.
  - repr2414_tac d2414_elems a2414_elems. split; [wit_arr|].
    eexists; split; [vm_compute; reflexivity|]; wit_deep.
  - wf2414_tac a2414_elems. split; [split; [discriminate|reflexivity]|]. split; [discriminate|]. unfold w12; wit; vm_compute; lia.
Qed.
Example C45_example_on : repr2414 d2414_on a2414_on /\ wf2414 a2414_on.
Proof.
  split.
  - repr2414_tac d2414_on a2414_on. split; [wit_arr|]. split; [wit_has|]. split; [wit_has|]. split; [wit_has|].
    eexists; split; [vm_compute; reflexivity|]; wit_deep.
  - wf2414_tac a2414_on. split; [split; [discriminate|reflexivity]|]. unfold w12; wit; vm_compute; lia.
Qed.

(** A frequency response whose data type is not 5 is written with its data, but
    only the header is read. *)
Theorem C45_data_type_refuted : forall c m fd ho d a rows, repr2414 d a -> wf2414 a -> n_body a = AFreq rows -> n_dt a <> 5%Z ->
  round_trips c m fd ho d (pre2414 a ++ recs_out a).
Proof.
  intros c m fd ho d a rows R W Hb Hd. assert (H := C45_round_trip_2414 c m fd ho d a R W). unfold read2414 in H. rewrite Hb in H. cbn [out_body] in H.
  rewrite (proj2 (Z.eqb_neq _ _) Hd), app_nil_r in H. exact H.
Qed.
Print Assumptions C45_data_type_refuted.
Definition put (d : dict) (k : string) (v : pyval) : dict := dput d (KS k) v.
Definition d2414_real : dict := Eval vm_compute in put d2414_freq "data_type" (VInt 2).
Example C45_data_type_example : exists f u d, write_sets noclock None uff0 [d2414_real] (lit "add") true = (Some f, u, None) /\
  read_sets (Some f) u (SelOne 0) false = Ok (u, One d) /\ dget d (KS "node_nums") = None /\ dget d (KS "x") = None.
Proof. eexists _, _, _. split; [vm_compute; reflexivity|]. split; [vm_compute; reflexivity|]. split; vm_compute; reflexivity. Qed.
(** Data with a value of 13 characters (negative, exponent of three digits) runs
    into the value before it. *)
Definition d2414_wide : dict := Eval vm_compute in put d2414_elems "data_at_element" (VArr2 DFloat [[fv "-1.5"; fv "-2e-100"]; [fv "1"; fv "2"]]).
Theorem C45_wide_refuted : exists f u, write_sets noclock None uff0 [d2414_wide] (lit "add") true = (Some f, u, None) /\
  read_sets (Some f) u (SelOne 0) false = Err (PyException "Error when reading data-set(s).").
Proof. eexists _, _. split; [vm_compute; reflexivity|]. vm_compute; reflexivity. Qed.
Print Assumptions C45_wide_refuted.
(** A set without nodes is written but cannot be read. *)
Definition d2414_empty : dict := Eval vm_compute in put (put d2414_nodes "node_nums" (VArr DInt [])) "data_at_node" (VList []).
Theorem C45_empty_refuted : exists f u, write_sets noclock None uff0 [d2414_empty] (lit "add") true = (Some f, u, None) /\
  read_sets (Some f) u (SelOne 0) false = Err (PyException "Error when reading data-set(s).").
Proof. eexists _, _. split; [vm_compute; reflexivity|]. vm_compute; reflexivity. Qed.
Print Assumptions C45_empty_refuted.

(* ------------------------------------------------------------------ *)
(** C46: a negative real of record 12 or 13 shifts the columns: the block cannot
    be read, or another value is read without notice. *)
Definition d2414_neg : dict := Eval vm_compute in put d2414_freq "eigenvalue" (fv "-1.5").
Theorem C46_refuted : exists f u, write_sets noclock None uff0 [d2414_neg] (lit "add") true = (Some f, u, None) /\
  read_sets (Some f) u (SelOne 0) false = Err (PyException "Error when reading data-set(s).").
Proof. eexists _, _. split; [vm_compute; reflexivity|]. vm_compute; reflexivity. Qed.
Print Assumptions C46_refuted.
Definition d2414_neg2 : dict := Eval vm_compute in put d2414_freq "hysteretic_damping" (fv "-2.5e15").
Theorem C46_silent_refuted : exists f u d, write_sets noclock None uff0 [d2414_neg2] (lit "add") true = (Some f, u, None) /\
  read_sets (Some f) u (SelOne 0) false = Ok (u, One d) /\ dget d2414_neg2 (KS "hysteretic_damping") = Some (fv "-2.5e15") /\
  dget d (KS "hysteretic_damping") = Some (fv "-25").
Proof. eexists _, _, _. split; [vm_compute; reflexivity|]. split; [vm_compute; reflexivity|]. split; vm_compute; reflexivity. Qed.
Print Assumptions C46_silent_refuted.

(* ------------------------------------------------------------------ *)
(** C47: for location 5 nothing is reported and the block is not closed; the next
    set written is lost in it. *)
Definition d2414_five : dict := Eval vm_compute in head2414 5 1 2 3.
Definition d15_next : dict := Eval vm_compute in
  [(KS "type", VInt 15); (KS "node_nums", VList [VInt 1]); (KS "def_cs", VList [VInt 0]); (KS "disp_cs", VList [VInt 0]); (KS "color", VList [VInt 0]);
   (KS "x", VList [VInt 1]); (KS "y", VList [VInt 2]); (KS "z", VList [VInt 3])].
Theorem C47_refuted : exists f u f' u', write_sets noclock None uff0 [d2414_five] (lit "add") true = (Some f, u, None) /\ n_sets u = 0 /\
  write_sets noclock (Some f) u [d15_next] (lit "add") true = (Some f', u', None) /\ get_set_types (Some f') u' = Ok (u', [2414%Z]).
Proof.
  eexists _, _, _, _. split; [vm_compute; reflexivity|]. split; [vm_compute; reflexivity|]. split; [vm_compute; reflexivity|]. vm_compute; reflexivity.
Qed.
Print Assumptions C47_refuted.
(** Other locations: the block is closed ([C45_round_trip_2414] for 1, 2, 3; here
    for the locations not known to the writer). *)
Theorem C47_closed : forall c m fd ho d a, repr2414 d a -> wf2414 a -> n_body a = ANone -> faithful c m fd ho d 2414 (pre2414 a ++ recs_out a).
Proof.
  intros c m fd ho d a R W Hb. assert (H := text_set_faithful _ _ _ _ _ _ _ _ _ (set2414 c m fd ho d a R W)). unfold read2414 in H. rewrite Hb in H. cbn [out_body] in H.
  rewrite app_nil_r in H. exact H.
Qed.
Print Assumptions C47_closed.
Definition d2414_none : dict := Eval vm_compute in head2414 4 1 2 3.
Definition a2414_none : ana := Eval vm_compute in a2414 4 1 2 3 [0; 0; 0; 0; 0; 0; 0; 0]%Z [0; 0; 0; 0; 0; 0; 0; 0]%Z zeros6 zeros6 ANone.
Example C47_example : repr2414 d2414_none a2414_none /\ wf2414 a2414_none.
Proof.
  split.
  - repr2414_tac d2414_none a2414_none. exact Logic.I.
  - wf2414_tac a2414_none. split; [|exact Logic.I]. split; [discriminate|]. intro Q; cbn [In] in Q; repeat (destruct Q as [Q|Q]; [discriminate Q|]); contradiction.
Qed.
