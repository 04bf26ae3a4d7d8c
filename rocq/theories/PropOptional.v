(** Property C73: a field that is documented as optional may be left out. *)
From Coq Require Import String List NArith ZArith Bool Lia.
Import ListNotations.
From Verif Require Import PyBase PyNum PyVal Utf8 Tools Facts DictFacts DsNodes DsHeaders DsGroups Ds55 Ds58 Ds2414 Uff Prepare Witness Accept
  PropPrepare PropAccept PropAccept2 PropAccept3 PropAccept4 PropAccept5.
From Coq Require Import Lia.
Open Scope string_scope.
Open Scope list_scope.
Open Scope nat_scope.

(* ------------------------------------------------------------------ *)
(** ** What is claimed *)

(** [d'] is [d] without some of the fields [opts]. *)
Definition fewer (opts : list string) (d d' : dict) : Prop :=
  forall k, dget d' k = dget d k \/ dget d' k = None /\ exists s, k = KS s /\ In s opts.
Definition written (c : clock) (m : wmode) (fd : bool) (file : option bytes) (u : uff) (d : dict) : Prop := w_exc (write_set c m fd file u d) = None.

(** The parameters marked "optional" in the docstrings of dataset_15.py:95-97,
    dataset_55.py:576-605, dataset_58.py:1220-1289, dataset_82.py:109-110,
    dataset_151.py:123-132 and dataset_164.py:109-110, for 58 without
    "orddenom_spec_data_type". *)
Definition optional15 := ["def_cs"; "disp_cs"; "color"].
Definition optional55 := ["id1"; "id2"; "id3"; "id4"; "id5"; "model_type"; "modal_m"; "modal_damp_vis"; "modal_damp_his"; "modal_a"; "modal_b"].
Definition optional58 := ["binary"; "id1"; "id2"; "id3"; "id4"; "id5"; "ver_num"; "load_case_id"; "rsp_ent_name"; "ref_ent_name"; "z_axis_value";
  "abscissa_spec_data_type"; "abscissa_len_unit_exp"; "abscissa_force_unit_exp"; "abscissa_temp_unit_exp"; "abscissa_axis_units_lab";
  "ordinate_spec_data_type"; "ordinate_len_unit_exp"; "ordinate_force_unit_exp"; "ordinate_temp_unit_exp"; "ordinate_axis_units_lab";
  "orddenom_len_unit_exp"; "orddenom_force_unit_exp"; "orddenom_temp_unit_exp"; "orddenom_axis_units_lab";
  "z_axis_spec_data_type"; "z_axis_len_unit_exp"; "z_axis_force_unit_exp"; "z_axis_temp_unit_exp"; "z_axis_axis_units_lab"; "spec_data_type"].
Definition optional82 := ["color"; "id"].
Definition optional151 := ["date_db_created"; "time_db_created"; "version_db1"; "version_db2"; "file_type"; "date_db_saved"; "time_db_saved"; "date_db_written"; "time_db_written"].
Definition optional164 := ["units_description"; "temp_mode"].

(* ------------------------------------------------------------------ *)
(** ** Proof *)

Definition free (opts : list string) (t : list (string * kind * need)) : bool :=
  forallb (fun f => match snd f with May => true | Must => negb (existsb (String.eqb (fst (fst f))) opts) end) t.
Lemma fewer_other : forall opts d d' k, fewer opts d d' -> existsb (String.eqb k) opts = false -> dget d' (KS k) = dget d (KS k).
Proof.
  intros opts d d' k H E. destruct (H (KS k)) as [-> | (_ & s & Hs & Hi)]; [reflexivity|]. injection Hs as <-. exfalso.
  assert (existsb (String.eqb k) opts = true) by (apply existsb_exists; exists k; split; [exact Hi|apply String.eqb_refl]). congruence.
Qed.
Lemma fewer_case : forall opts d d' t f, fewer opts d d' -> free opts t = true -> In f t ->
  dget d' (KS (fst (fst f))) = dget d (KS (fst (fst f))) \/ dget d' (KS (fst (fst f))) = None /\ snd f = May.
Proof.
  intros opts d d' t f H F Hf. unfold free in F. rewrite forallb_forall in F. specialize (F f Hf). destruct (snd f) eqn:E.
  - left. apply fewer_other with (1 := H). destruct (existsb _ _); [discriminate|reflexivity].
  - destruct (H (KS (fst (fst f)))) as [-> | (N & _)]; auto.
Qed.
Lemma fewer_fields : forall opts d d' t, fewer opts d d' -> free opts t = true -> Forall (field_ok d) t -> Forall (field_ok d') t.
Proof.
  intros opts d d' t H F. rewrite !Forall_forall. intros A f Hf. specialize (A f Hf). unfold field_ok in *.
  destruct (fewer_case opts d d' t f H F Hf) as [-> | [-> M]]; assumption.
Qed.
Lemma fewer_columns : forall opts d d' n t, fewer opts d d' -> free opts t = true -> Forall (column_ok d n) t -> Forall (column_ok d' n) t.
Proof.
  intros opts d d' n t H F. rewrite !Forall_forall. intros A f Hf. specialize (A f Hf). unfold column_ok in *.
  destruct (fewer_case opts d d' t f H F Hf) as [-> | [-> M]]; assumption.
Qed.
Ltac other := eapply fewer_other; [eassumption|reflexivity].

Theorem C73_15 : forall c m fd file u d d', dget d (KS "type") = Some (VInt 15) -> dget d (KS "data") = None -> fewer optional15 d d' ->
  written c m fd file u d -> written c m fd file u d'.
Proof.
  intros c m fd file u d d' T D H. unfold written. rewrite (C72_15 c m fd file u d T D), (C72_15 c m fd file u d').
  2: { rewrite <- T. other. } 2: { rewrite <- D. other. }
  intros (n & C & A). exists n. split.
  - unfold counted in *. assert (E : dget d' (KS "node_nums") = dget d (KS "node_nums")) by other. rewrite E. exact C.
  - destruct A as [A|A]; [left; exact A|right]. eapply fewer_columns; [exact H|reflexivity|exact A].
Qed.
Print Assumptions C73_15.
Theorem C73_55 : forall c m fd file u d d' dt l, dget d (KS "type") = Some (VInt 55) -> dget d (KS "data") = None -> dget d (KS "r1") = Some (VArr dt l) ->
  fewer optional55 d d' -> written c m fd file u d -> written c m fd file u d'.
Proof.
  intros c m fd file u d d' dt l T D R H. unfold written. rewrite (C72_55 c m fd file u d dt l T D R), (C72_55 c m fd file u d' dt l).
  2: { rewrite <- T. other. } 2: { rewrite <- D. other. } 2: { rewrite <- R. other. }
  intros (A & (v & k & t & Ev & Hk & Eq & F) & n & C & B). split; [eapply fewer_fields; [exact H|reflexivity|exact A]|]. split.
  - exists v, k, t. split; [rewrite <- Ev; other|]. split; [exact Hk|]. split; [exact Eq|]. eapply fewer_fields; [exact H| |exact F].
    cbn [analyses In] in Hk. destruct Hk as [Hk|[Hk|[Hk|[Hk|[]]]]]; injection Hk as <- <-; reflexivity.
  - exists n. assert (E : dget d' (KS "node_nums") = dget d (KS "node_nums")) by other. split; [unfold counted in *; rewrite E; exact C|].
    assert (Er : responses d' dt = responses d dt).
    { unfold responses. assert (E4 : dget d' (KS "r4") = dget d (KS "r4")) by other. assert (E5 : dget d' (KS "r5") = dget d (KS "r5")) by other. assert (E6 : dget d' (KS "r6") = dget d (KS "r6")) by other.
      rewrite E4, E5, E6. reflexivity. }
    rewrite Er. destruct B as [B|B]; [left; exact B|right]. eapply fewer_columns; [exact H| |exact B].
    unfold responses. destruct dt; try reflexivity; destruct (dget d (KS "r4")), (dget d (KS "r5")), (dget d (KS "r6")); reflexivity.
Qed.
Print Assumptions C73_55.
Theorem C73_58 : forall c m fd file u d d' dt l, dget d (KS "type") = Some (VInt 58) -> dget d (KS "data") = Some (VArr dt l) ->
  fewer optional58 d d' -> written c m fd file u d -> written c m fd file u d'.
Proof.
  intros c m fd file u d d' dt l T D H. unfold written. rewrite (C72_58 c m fd file u d dt l T D), (C72_58 c m fd file u d' dt l).
  2: { rewrite <- T. other. } 2: { rewrite <- D. other. }
  intros (A & (v & Ev & V) & O & (b & B) & N & even & x & xs & x0 & x1 & S & Ex & X).
  split; [eapply fewer_fields; [exact H|reflexivity|exact A]|]. split; [exists v; split; [rewrite <- Ev; other|exact V]|]. split.
  - intro E. destruct (O E) as (w & Ew & W). exists w. split; [rewrite <- Ew; other|exact W].
  - split.
    + unfold flag in *. destruct (H (KS "binary")) as [-> | [-> _]]; eauto.
    + split; [exact N|]. exists even, x, xs, x0, x1. split; [|split; [rewrite <- Ex; other|exact X]].
      unfold flag in *. assert (E : dget d' (KS "abscissa_spacing") = dget d (KS "abscissa_spacing")) by other. rewrite E. exact S.
Qed.
Print Assumptions C73_58.
Theorem C73_82 : forall c m fd file u d d', dget d (KS "type") = Some (VInt 82) -> dget d (KS "data") = None ->
  (forall dt l, dget d (KS "nodes") = Some (VArr dt l) -> Forall integral l) -> fewer optional82 d d' -> written c m fd file u d -> written c m fd file u d'.
Proof.
  intros c m fd file u d d' T D N H. assert (E : dget d' (KS "nodes") = dget d (KS "nodes")) by other.
  unfold written. rewrite (C72_82 c m fd file u d T D N), (C72_82 c m fd file u d').
  2: { rewrite <- T. other. } 2: { rewrite <- D. other. } 2: { rewrite E. exact N. }
  rewrite E. intros (A & B). split; [eapply fewer_fields; [exact H|reflexivity|exact A]|exact B].
Qed.
Print Assumptions C73_82.
Theorem C73_151 : forall c m fd file u d d', dget d (KS "type") = Some (VInt 151) -> dget d (KS "data") = None ->
  Forall writable_char (now_date c) -> Forall writable_char (now_time c) -> fewer optional151 d d' -> written c m fd file u d -> written c m fd file u d'.
Proof.
  intros c m fd file u d d' T D C1 C2 H. unfold written. rewrite (C72_151 c m fd file u d T D C1 C2), (C72_151 c m fd file u d').
  2: { rewrite <- T. other. } 2: { rewrite <- D. other. } 2: exact C1. 2: exact C2.
  intro A. eapply fewer_fields; [exact H|reflexivity|exact A].
Qed.
Print Assumptions C73_151.
Theorem C73_164 : forall c m fd file u d d', dget d (KS "type") = Some (VInt 164) -> dget d (KS "data") = None -> fewer optional164 d d' ->
  written c m fd file u d -> written c m fd file u d'.
Proof.
  intros c m fd file u d d' T D H. unfold written. rewrite (C72_164 c m fd file u d T D), (C72_164 c m fd file u d').
  2: { rewrite <- T. other. } 2: { rewrite <- D. other. }
  intro A. eapply fewer_fields; [exact H|reflexivity|exact A].
Qed.
Print Assumptions C73_164.

(** Two fields documented as optional may not be left out: the specific data type
    of the ordinate denominator of 58 (dataset_58.py:1268, 936) and the color of an
    element of 2412 (dataset_2412.py:156, 62). *)
Theorem C73_58_refuted : forall c m fd file u d dt l, dget d (KS "type") = Some (VInt 58) -> dget d (KS "data") = Some (VArr dt l) ->
  dget d (KS "orddenom_spec_data_type") = None -> ~ written c m fd file u d.
Proof.
  intros c m fd file u d dt l T D O W. apply (C72_58 c m fd file u d dt l T D) in W as (A & _). rewrite Forall_forall in A.
  assert (I : In ("orddenom_spec_data_type", Int, Must) head58) by (unfold head58, fields; cbn [map app In]; do 38 right; left; reflexivity).
  specialize (A _ I). unfold field_ok in A. cbn [fst snd] in A. rewrite O in A. discriminate.
Qed.
Print Assumptions C73_58_refuted.
(** In particular no set that prepare_58 makes without it is written, in either form of the dictionary. *)
Theorem C73_prepared_refuted : forall a full d dt l c m fd file u, prepare sig58 a full = Ok d -> given a "data" = VArr dt l -> given a "orddenom_spec_data_type" = VNone ->
  ~ written c m fd file u d.
Proof.
  intros a full d dt l c m fd file u H Hd Ho W. destruct (C57_values sig58 a full d ltac:(unfold sigs; cbn [In]; auto 20) H) as ((n & E & T) & V & _). injection E as <-.
  assert (D := V "data" ltac:(vm_compute; tauto)). rewrite Hd in D. cbn [is_none] in D. rewrite andb_false_r in D.
  assert (O := V "orddenom_spec_data_type" ltac:(vm_compute; tauto)). rewrite Ho in O. cbn [is_none] in O. rewrite andb_true_r in O. destruct full; cbn [negb] in O.
  - apply (C72_58 c m fd file u d dt l T D) in W as (A & _). rewrite Forall_forall in A.
    assert (I : In ("orddenom_spec_data_type", Int, Must) head58) by (unfold head58, fields; cbn [map app In]; do 38 right; left; reflexivity).
    specialize (A _ I). unfold field_ok in A. cbn [fst snd] in A. rewrite O in A. exact A.
  - eapply C73_58_refuted; eauto.
Qed.
Print Assumptions C73_prepared_refuted.
Theorem C73_2412_refuted : forall c m fd file u d k v l g, dget d (KS "type") = Some (VInt 2412) -> dget d (KS "data") = None ->
  In (KI k, v) d -> entries v = Some l -> In (VDict g) l -> dget g (KS "color") = None -> ~ written c m fd file u d.
Proof.
  intros c m fd file u d k v l g T D Hk Hl Hg Hc W. destruct (proj1 (C72_2412 c m fd file u d T D) W k v Hk) as (l' & E & F). rewrite Hl in E. injection E as <-.
  rewrite Forall_forall in F. destruct (F _ Hg) as (g' & E & A & _). injection E as <-. rewrite Forall_forall in A.
  specialize (A ("color", Int, Must) ltac:(vm_compute; tauto)). unfold field_ok in A. cbn [fst snd] in A. rewrite Hc in A. discriminate.
Qed.
Print Assumptions C73_2412_refuted.

(* ------------------------------------------------------------------ *)
(** ** Examples *)

Definition d164 := with_type 164 [("units_code", VInt 1); ("units_description", VStr (lit "SI")); ("temp_mode", VInt 1); ("length", vf 1); ("force", vf 1); ("temp", vf 1); ("temp_offset", vf 273)].
Definition without (ks : list string) (d : dict) : dict := filter (fun kv => match fst kv with KS s => negb (existsb (String.eqb s) ks) | KI _ => true end) d.
Lemma without_fewer : forall ks d, fewer ks d (without ks d).
Proof.
  intros ks d k. induction d as [|[k' v] d IH]; [left; reflexivity|]. cbn [without filter fst]. fold (without ks d).
  assert (G : forall r, dget ((k', v) :: r) k = if key_eqb k k' then Some v else dget r k) by reflexivity.
  destruct (match k' with KS s => negb (existsb (String.eqb s) ks) | KI _ => true end) eqn:E; rewrite !G; [destruct (key_eqb k k'); [left; reflexivity|exact IH]|].
  destruct (key_eqb_spec k k') as [<- |N]; [|exact IH]. right. destruct k as [s|z]; [|discriminate]. apply negb_false_iff in E. split.
  - clear IH G. induction d as [|[k' w] d IH]; [reflexivity|]. cbn [without filter fst]. fold (without ks d). destruct (match k' with KS s => negb (existsb (String.eqb s) ks) | KI _ => true end) eqn:E'; [|exact IH].
    assert (G : dget ((k', w) :: without ks d) (KS s) = if key_eqb (KS s) k' then Some w else dget (without ks d) (KS s)) by reflexivity. rewrite G.
    destruct (key_eqb_spec (KS s) k') as [<- |N]; [|exact IH]. rewrite E in E'. discriminate.
  - exists s. split; [reflexivity|]. apply existsb_exists in E as (x & Hx & Ex). apply String.eqb_eq in Ex as ->. exact Hx.
Qed.
Example C73_example : fewer optional164 d164 (without optional164 d164) /\ refused d164 = false /\ refused (without optional164 d164) = false.
Proof. split; [apply without_fewer|]. split; vm_compute; reflexivity. Qed.
(** Each field of a complete function set in turn is left out: only the fields that
    are not optional matter, and "orddenom_spec_data_type". *)
Example C73_58_example : map (fun k => refused (with_type 58 (except k d58_ok))) ["orddenom_spec_data_type"; "rsp_node"; "x"; "id1"] = [true; true; true; false].
Proof. vm_compute. reflexivity. Qed.
Example C73_prepared_example : match prepare sig58 [("func_type", VInt 1); ("rsp_node", VInt 1); ("rsp_dir", VInt 3); ("ref_node", VInt 2); ("ref_dir", VInt 3);
    ("x", VArr DFloat [vf 0; vf 1]); ("data", VArr DFloat [vf 1; vf 3])] false with Ok d => Some (refused d) | Err _ => None end = Some true.
Proof. vm_compute. reflexivity. Qed.
Example C73_2412_example :
  let el := [(KS "element_nums", VInt 1); (KS "fe_descriptor", VInt 44); (KS "phys_table", VInt 1); (KS "mat_table", VInt 1); (KS "num_nodes", VInt 4); (KS "nodes_nums", VList [VInt 1; VInt 2; VInt 3; VInt 4])] in
  refused [(KS "type", VInt 2412); (KI 44, VList [VDict el])] = true /\ refused [(KS "type", VInt 2412); (KI 44, VList [VDict ((KS "color", VInt 7) :: el)])] = false.
Proof. vm_compute. split; reflexivity. Qed.
