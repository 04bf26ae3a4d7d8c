(** Elements (2412) and permanent groups (2429, 2467).  See PropNodes.v for the
    meaning of [round_trips], [reprN], [wfN], [readN]. *)
From Coq Require Import String List NArith ZArith Bool Lia.
Import ListNotations.
From Verif Require Import PyBase PyNum PyVal Utf8 Tools DsNodes DsHeaders DsGroups Uff FloatText Container Append Lines Stored Cells Rows RtNodes RtHeads RtElems RtGroups Witness.
Open Scope string_scope.
Open Scope list_scope.
Open Scope nat_scope.

(* ------------------------------------------------------------------ *)
(** C43: any number of elements under any integer descriptors; [read2412] groups
    them by descriptor in the order of first appearance. *)
Theorem C43_round_trip_2412 : forall c m fd ho d l, repr2412 d l -> wf2412 l -> round_trips c m fd ho d (read2412 l).
Proof. intros. eapply text_set_round, set2412; eassumption. Qed.
Print Assumptions C43_round_trip_2412.
(** Grouping keeps every element: those of a descriptor are exactly the given ones, in order. *)
Theorem C43_grouping : forall l k,
  dget (read2412 l) (KI k) = (if existsb (fun e => (e_desc e =? k)%Z) l
    then Some (VList (map (fun e => VDict (elem_out e)) (filter (fun e => (e_desc e =? k)%Z) l))) else None).
Proof.
  intros l k. unfold read2412. rewrite app_comm_cons. fold (typed l). rewrite DictFacts.dget_app, dget_typed.
  assert (E : existsb (Z.eqb k) (map e_desc l) = existsb (fun e => (e_desc e =? k)%Z) l).
  { induction l as [|e l IH]; [reflexivity|]. cbn [map existsb]. rewrite IH, Z.eqb_sym. reflexivity. }
  rewrite E. destruct (existsb (fun e => (e_desc e =? k)%Z) l); [reflexivity|].
  unfold legacy2412. destruct (with_desc 41 l), (with_desc 44 l); reflexivity.
Qed.
Print Assumptions C43_grouping.
Definition elem_dict (num desc n : Z) (ns : list Z) (more : dict) : pyval :=
  VDict ([(KS "element_nums", VInt num); (KS "fe_descriptor", VInt desc); (KS "phys_table", VInt 1); (KS "mat_table", VInt 2);
          (KS "color", VInt 7); (KS "num_nodes", VInt n); (KS "nodes_nums", VArr DInt (map VInt ns))] ++ more).
Definition d2412 : dict := Eval vm_compute in
  [(KS "type", VInt 2412);
   (KI 44, VList [elem_dict 1 44 4 [1; 2; 3; 4] []; elem_dict 2 44 4 [4; 3; 5; 999999999] []]%Z);
   (KI 11, VList [elem_dict 1234567890 11 2 [1; 5]
      [(KS "beam_orientation", VInt 0); (KS "beam_foreend_cross", VInt 1); (KS "beam_aftend_cross", VInt 2)]]%Z);
   (KI 41, VList [elem_dict 3 41 3 [5; 6; 7] []; elem_dict 4 44 0 [] []]%Z)].
Definition l2412 : list elem := Eval vm_compute in
  let e n d k ns := {| e_num := n; e_desc := d; e_phys := 1; e_mat := 2; e_color := 7; e_count := k; e_beam := (0, 1, 2)%Z; e_nodes := ns |} in
  [e 1 44 4 [1; 2; 3; 4]; e 2 44 4 [4; 3; 5; 999999999]; e 1234567890 11 2 [1; 5]; e 3 41 3 [5; 6; 7]; e 4 44 0 []]%Z.
Ltac wit_elem := eexists; split; [reflexivity|]; do 7 (split; [eexists; split; [vm_compute; reflexivity|first [split; vm_compute; reflexivity|wit_seq|vm_compute; reflexivity]]|]);
  let B := fresh in intro B; first [discriminate B|clear B; cbn [e_beam]; wit].
Example C43_example : repr2412 d2412 l2412 /\ wf2412 l2412.
Proof.
  split.
  - split; [reflexivity|]. split; [reflexivity|]. unfold d2412, l2412. cbn [elems_of].
    eexists [_; _], [_; _; _]. split; [reflexivity|]. split; [eexists; split; [reflexivity|repeat (constructor; [wit_elem|]); constructor]|].
    eexists [_], [_; _]. split; [reflexivity|]. split; [eexists; split; [reflexivity|repeat (constructor; [wit_elem|]); constructor]|].
    eexists [_; _], []. split; [reflexivity|]. split; [eexists; split; [reflexivity|repeat (constructor; [wit_elem|]); constructor]|]. reflexivity.
  - unfold wf2412, l2412. repeat (constructor; [unfold wf_elem; cbn [e_num e_desc e_phys e_mat e_color e_count e_nodes e_beam];
      do 4 (split; [wit|]); split; [intro Hb; first [discriminate Hb|clear Hb; wit]|wit]|]). constructor.
Qed.

(** C44: one rod (descriptor 21) read from a file is written without its beam
    line; the new file is accepted but cannot be read. *)
Definition rod_file : bytes := lit ("    -1" ++ "
" ++ "  2412" ++ "
" ++ "         1        21         2         1         7         2" ++ "
" ++ "         0         1         1" ++ "
" ++ "         1         9" ++ "
" ++ "    -1" ++ "
").
Theorem C44_refuted : exists u d f u', uff_new (Some rod_file) = Ok u /\
  read_sets (Some rod_file) u (SelOne 0) false = Ok (u, One d) /\
  write_sets noclock None uff0 [d] (lit "add") true = (Some f, u', None) /\
  read_sets (Some f) u' (SelOne 0) false = Err (PyException "Error when reading data-set(s).").
Proof.
  eexists _, _, _, _. split; [vm_compute; reflexivity|]. split; [vm_compute; reflexivity|]. split; [vm_compute; reflexivity|]. vm_compute; reflexivity.
Qed.
Print Assumptions C44_refuted.

(* ------------------------------------------------------------------ *)
(** C49: no set read from a file of type 2429 can be written: the writer looks for
    the attributes of one group in the set itself. *)
Lemma read2429_shape : forall block d, extract2429 block = Ok d -> exists gs, d = [(KS "type", VInt 2429); (KS "groups", VList gs)].
Proof.
  intros block d H. unfold extract2429, extract2429_fuel in H. destruct (loop2429 _ _ _ _) as [gs|e]; cbn [rbind try_any] in H.
  - injection H as <-. eauto.
  - destruct e; discriminate.
Qed.
Lemma write2429_fails : forall c m fd file u gs, exists f u',
  write_sets c file u [[(KS "type", VInt 2429); (KS "groups", VList gs)]] (mode_name m) fd = (f, u', Some (PyException "Error writing data-set #2429")).
Proof.
  intros c m fd file u gs. unfold write_sets. rewrite parse_mode_name. cbn [write_list].
  match goal with |- context [write_set ?a ?b ?e ?f ?g ?h] => set (w := write_set a b e f g h);
    assert (Hw : w_exc w = Some (PyException "Error writing data-set #2429")) end.
  { unfold w. destruct m; reflexivity. }
  destruct w as [f u' d' ex]. cbn in Hw. subst ex. cbn. eauto.
Qed.
Theorem C49_refuted : forall block d, extract2429 block = Ok d -> forall c m fd file u, exists f u' e,
  write_sets c file u [d] (mode_name m) fd = (f, u', Some e).
Proof.
  intros block d H c m fd file u. destruct (read2429_shape _ _ H) as [gs ->]. destruct (write2429_fails c m fd file u gs) as (f & u' & E).
  exists f, u', (PyException "Error writing data-set #2429"). exact E.
Qed.
Print Assumptions C49_refuted.
Definition d2429 (es : list (Z * Z)) : dict :=
  [(KS "type", VInt 2429); (KS "group_number", VInt 17); (KS "group_name", VStr (lit "group one")); (KS "active_load_set_no_for_group", VInt 5);
   (KS "entity_type_code", VArr DInt (map (fun e => VInt (fst e)) es)); (KS "entity_tag", VList (map (fun e => VInt (snd e)) es))].
Definition g2429 : group := Eval vm_compute in {| p_num := 17; p_sets := [0; 0; 5; 0; 0; 0]%Z; p_name := lit "group one" |}.
(** The hypothesis of [C49_refuted] holds for what a 2429 file gives. *)
Example C49_example : exists f u u' d, write_sets noclock None uff0 [d2429 [(8, 1)]%Z] (lit "add") true = (Some f, u, None) /\
  read_sets (Some f) u (SelOne 0) false = Ok (u', One d) /\ d = read2429 g2429 [(8, 1)]%Z /\ extract2429 (firstn 160 f) = Ok d.
Proof.
  eexists _, _, _, _. split; [vm_compute; reflexivity|]. split; [vm_compute; reflexivity|]. split; [vm_compute; reflexivity|]. vm_compute; reflexivity.
Qed.

(** C50: with five entities the last one read is not the one written; with two
    the writer fails (and leaves a truncated block); without entities the group
    is not seen.  The round trip holds if the entities of an incomplete last line
    are those at positions 0, 4, 8 ([last_row_ok]), in particular for one entity
    and for multiples of four. *)
Definition five : list (Z * Z) := [(8, 1); (8, 2); (8, 3); (8, 4); (8, 5)]%Z.
Theorem C50_refuted : exists f u d, write_sets noclock None uff0 [d2429 five] (lit "add") true = (Some f, u, None) /\
  read_sets (Some f) u (SelOne 0) false = Ok (u, One d) /\
  d = read2429 g2429 [(8, 1); (8, 2); (8, 3); (8, 4); (8, 1)]%Z.
Proof. eexists _, _, _. split; [vm_compute; reflexivity|]. split; [vm_compute; reflexivity|]. vm_compute; reflexivity. Qed.
Print Assumptions C50_refuted.
Theorem C50_two_refuted : exists f u, write_sets noclock None uff0 [d2429 [(8, 1); (8, 2)]%Z] (lit "add") true =
  (Some f, u, Some (PyException "Error writing data-set #2429")).
Proof. eexists _, _. vm_compute; reflexivity. Qed.
Theorem C50_none_refuted : exists f u, write_sets noclock None uff0 [d2429 []] (lit "add") true = (Some f, u, None) /\
  read_sets (Some f) u (SelOne 0) false = Ok (u, One [(KS "type", VInt 2429); (KS "groups", VList [])]).
Proof. eexists _, _. split; [vm_compute; reflexivity|]. vm_compute; reflexivity. Qed.
Theorem C50_round_trip_2429 : forall c m fd ho d g es, repr2429 d g es -> wf2429 g es -> round_trips c m fd ho d (read2429 g es).
Proof. intros. eapply text_set_round, set2429; eassumption. Qed.
Print Assumptions C50_round_trip_2429.
Lemma C50_counts : forall es, length es = 1 \/ length es mod 4 = 0 -> last_row_ok es.
Proof. intros es [H|H] i Hi; rewrite H in *; [|lia]. cbn in Hi. replace i with 0 by lia. reflexivity. Qed.
Example C50_example : let es := [(8, 1); (7, -1234); (8, -3); (8, 999999999); (8, 1)]%Z in repr2429 (d2429 es) g2429 es /\ wf2429 g2429 es.
Proof.
  cbv zeta. split.
  - unfold repr2429. do 3 (split; [wit1|]). split; [unfold sets_or, group_keys; cbn [p_sets g2429]; repeat (constructor; [wit1|]); constructor|]. wit.
  - unfold wf2429, wf_group. split; [cbn [p_num p_sets p_name g2429]; wit|]. split; [wit|]. split; [discriminate|]. split; [unfold cells2; cbn [fst snd]; wit|].
    intros i Hi. cbn in Hi. replace i with 0 by lia. reflexivity.
Qed.

(* ------------------------------------------------------------------ *)
(** C51 *)
Theorem C51_round_trip_2467 : forall c m fd ho d l, repr2467 d l -> wf2467 l -> round_trips c m fd ho d (read2467 l).
Proof. intros. eapply text_set_round, set2467; eassumption. Qed.
Print Assumptions C51_round_trip_2467.
Definition gd2467 (num : Z) (name : string) (es : list ent4) : pyval :=
  VDict ([(KS "group_number", VInt num); (KS "group_name", VStr (lit name))] ++ map (fun k => (KS k, VInt 3)) group_keys ++
    [(KS "entity_type_code", VArr DInt (map (fun e => VInt (x_code e)) es)); (KS "entity_tag", VList (map (fun e => VInt (x_tag e)) es));
     (KS "entity_node_leaf_id", VList (map (fun e => VInt (x_leaf e)) es)); (KS "entity_component_id", VList (map (fun e => VInt (x_comp e)) es))]).
Definition es2467 : list ent4 := [(8, 1, 0, 0); (7, -2, 0, 0); (8, 999999999, -1, 4)]%Z.
Definition d2467 : dict := Eval vm_compute in
  [(KS "type", VInt 2467); (KS "groups", VList [gd2467 1 "first" es2467; gd2467 1234567890 " a name of more than forty characters in all " []])].
Definition l2467 : list (group * list ent4) := Eval vm_compute in
  [({| p_num := 1; p_sets := repeat 3%Z 6; p_name := lit "first" |}, es2467);
   ({| p_num := 1234567890; p_sets := repeat 3%Z 6; p_name := lit " a name of more than forty characters in all " |}, [])].
Example C51_example : repr2467 d2467 l2467 /\ wf2467 l2467.
Proof.
  split.
  - split; [reflexivity|]. split; [reflexivity|]. eexists. split; [vm_compute; reflexivity|]. eexists. split; [vm_compute; reflexivity|].
    repeat (constructor; [eexists; split; [reflexivity|]; cbn [fst snd p_num p_sets p_name]; split; [wit_has|]; split;
      [unfold sets_of, group_keys; repeat (constructor; [wit_has|]); constructor|wit]|]). constructor.
  - unfold wf2467, wf_group, l2467. repeat (constructor; [cbn [fst snd p_num p_sets p_name]; split; [wit|split; [wit|]]; unfold cells4; cbn [x_code x_tag x_leaf x_comp]; wit|]). constructor.
Qed.
