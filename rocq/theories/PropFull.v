(** Property C58, second sentence, and C75: which prepared sets cannot be written. *)
From Coq Require Import String List NArith ZArith Bool Lia.
Import ListNotations.
From Verif Require Import PyBase PyNum PyVal Utf8 Tools Facts IntFacts FloatFacts DictFacts DsNodes DsHeaders DsGroups Ds55 Ds58 Ds2414 Uff Prepare
  Container Append Lines Stored Cells Rows RtHeads Witness PropNumeral Accept PropCaller PropAccept PropAccept2 PropAccept3 PropAccept4 PropAccept5 PropPrepare PropStable PropConvert.
From Coq Require Import Lia.
Open Scope string_scope.
Open Scope list_scope.
Open Scope nat_scope.

(* ------------------------------------------------------------------ *)
(** ** With all arguments given, return_full_dict changes nothing *)

Lemma clean_id : forall d, Forall (fun kv => is_none (snd kv) = false) d -> check_dict_for_none d = d.
Proof. induction d as [|[k v] d IH]; intro H; [reflexivity|]. inversion H as [|? ? Hv Hd]; subst. cbn [check_dict_for_none snd] in *. rewrite Hv, IH by assumption. reflexivity. Qed.
Theorem C58_all_given : forall sg a, In sg sigs -> (forall k, In k (ps_params sg) -> given a k <> VNone) -> prepare sg a true = prepare sg a false.
Proof.
  intros sg a Hs H. unfold prepare. destruct (accepts sg a); [|reflexivity]. destruct (rmap _ _); [|reflexivity]. cbn [rbind]. f_equal. symmetry. apply clean_id.
  rewrite Forall_forall. intros [key v] Hi. cbn [snd]. destruct (is_none v) eqn:E; [|reflexivity]. exfalso. destruct v; try discriminate E.
  assert (D := full_distinct sg a Hs). assert (G : dget (full_dict sg a) key = Some VNone).
  { revert Hi D. clear. generalize (full_dict sg a). induction d as [|[k' v'] d IH]; intros Hi D; [contradiction|]. inversion D as [|? ? Hn Hd]; subst. cbn [dget].
    destruct Hi as [Hi|Hi]; [injection Hi as -> ->; destruct (key_eqb_spec key key) as [_|X]; [reflexivity|contradiction]|].
    destruct (key_eqb_spec key k') as [->|_]; [|auto]. exfalso. apply Hn. apply (in_map fst) in Hi. exact Hi. }
  assert (R := sigs_regular _ Hs). destruct (full_keys sg a (key, VNone) R Hi) as [Ek|(k & Ek & Hk)]; cbn [fst] in Ek; subst key.
  - destruct (regular_type _ R) as [n Hn]. unfold full_dict in G. rewrite Hn in G. discriminate G.
  - apply (H k Hk). rewrite regular_get in G; [|exact R|].
    + rewrite (proj2 (existsb_exists _ _)) in G; [|exists k; split; [exact Hk|apply String.eqb_refl]]. rewrite arg_given in G by exact Hs. congruence.
    + intros ->. unfold regular in R. rewrite !andb_true_iff in R. destruct R as (((((_ & _) & _) & R) & _) & _). apply negb_true_iff in R.
      assert (existsb (String.eqb "type") (ps_params sg) = true); [|congruence]. apply existsb_exists. exists "type". auto.
Qed.
Print Assumptions C58_all_given.

(* ------------------------------------------------------------------ *)
(** ** An argument left out *)

(** Arguments that are written as numbers. *)
Definition numeric_args : list (psig * list string) :=
  [(sig58, ["func_type"; "ver_num"; "load_case_id"; "rsp_node"; "rsp_dir"; "ref_node"; "ref_dir"; "z_axis_value"; "abscissa_spec_data_type"; "abscissa_len_unit_exp";
      "abscissa_force_unit_exp"; "abscissa_temp_unit_exp"; "ordinate_spec_data_type"; "ordinate_len_unit_exp"; "ordinate_force_unit_exp"; "ordinate_temp_unit_exp";
      "orddenom_spec_data_type"; "orddenom_len_unit_exp"; "orddenom_force_unit_exp"; "orddenom_temp_unit_exp"; "z_axis_spec_data_type"; "z_axis_len_unit_exp";
      "z_axis_force_unit_exp"; "z_axis_temp_unit_exp"; "x"]);
   (sig55, ["model_type"; "analysis_type"; "data_ch"; "spec_data_type"; "node_nums"]);
   (sig82, ["trace_num"; "color"; "nodes"]);
   (sig164, ["units_code"; "temp_mode"; "length"; "force"; "temp"; "temp_offset"]);
   (sig1858, ["record_num"; "octave_format"; "measurement_run"; "weighting_type"; "window_type"; "amplitude_units"; "normalization_method";
      "abscissa_data_type_qualifier"; "ordinate_numerator_data_type_qualifier"; "ordinate_denominator_data_type_qualifier"; "z_axis_data_type_qualifier"; "sampling_type";
      "z_rpm_value"; "z_time_value"; "z_order_value"; "num_of_samples"; "user_value_1"; "user_value_2"; "user_value_3"; "user_value_4"; "exponential_window_damping_factor"]);
   (sig2400, ["model_uid"; "entity_type"; "entity_subtype"; "version_number"; "status_mask"; "idm_version_id"; "idm_item_id"; "primary_parent_uid"; "optimization_switches"]);
   (sig2414, ["analysis_dataset_label"; "dataset_location"; "model_type"; "analysis_type"; "data_characteristic"; "result_type"; "data_type";
      "number_of_data_values_for_the_data_component"]);
   (sig2420, ["Part_UID"; "CS_sys_labels"; "CS_types"; "CS_colors"; "CS_names"; "CS_matrices"]);
   (sig15, ["node_nums"]); (sig18, ["cs_num"]); (sig2411, ["node_nums"])].
(** The conditions of the C72 theorems: one-dimensional data, an array [r1], nodes
    that are integers. *)
Definition typed_args (sg : psig) (a : kwargs) : Prop :=
  match ps_type sg with
  | Some 58%Z => exists dt l, given a "data" = VArr dt l
  | Some 55%Z => exists dt l, given a "r1" = VArr dt l
  | Some 82%Z => forall dt l, given a "nodes" = VArr dt l -> Forall integral l
  | _ => True
  end.
Definition number_kind (k : kind) : bool := match k with Text => false | _ => true end.
Lemma none_refused : forall d t k kd nd, Forall (field_ok d) t -> In (k, kd, nd) t -> number_kind kd = true -> dget d (KS k) = Some VNone -> False.
Proof.
  intros d t k kd nd F Hi Hk Hd. rewrite Forall_forall in F. specialize (F _ Hi). unfold field_ok in F. cbn [fst snd] in F. rewrite Hd in F.
  destruct kd; try discriminate Hk; cbn in F; try contradiction; try (destruct F as [F|(s & z & F & _)]; [contradiction|discriminate]); try (destruct F as (l & x & F & _); discriminate);
    try (destruct F as (l & F & _); discriminate).
Qed.
Lemma exact_refused : forall d n t k kd nd, Forall (exact_ok d n) t -> In (k, kd, nd) t -> dget d (KS k) = Some VNone -> False.
Proof.
  intros d n t k kd nd F Hi Hd. rewrite Forall_forall in F. specialize (F _ Hi). unfold exact_ok in F. cbn [fst snd] in F. rewrite Hd in F. destruct F as (l & F & _). discriminate F.
Qed.
Lemma count_refused : forall d k n, counted d k n -> dget d (KS k) = Some VNone -> False.
Proof. intros d k n (v & l & E & El & _) H. rewrite H in E. injection E as <-. discriminate El. Qed.
(** The field [k] of kind [kd] in a table. *)
Fixpoint kind_in (t : list (string * kind * need)) (k : string) : option (kind * need) :=
  match t with [] => None | (k', kd, nd) :: r => if String.eqb k k' then Some (kd, nd) else kind_in r k end.
Lemma kind_in_In : forall t k kd nd, kind_in t k = Some (kd, nd) -> In (k, kd, nd) t.
Proof.
  induction t as [|[[k' kd'] nd'] t IH]; intros k kd nd H; [discriminate|]. cbn [kind_in] in H. destruct (String.eqb_spec k k') as [->|]; [injection H as -> ->; left; reflexivity|right; auto].
Qed.
Lemma field_refused : forall d t k kd nd, Forall (field_ok d) t -> kind_in t k = Some (kd, nd) -> number_kind kd = true -> dget d (KS k) = Some VNone -> False.
Proof. intros d t k kd nd F H. eapply none_refused; [exact F|]. apply kind_in_In. exact H. Qed.
Lemma prepared_get : forall sg a d k, In sg sigs -> prepare sg a true = Ok d -> In k (ps_params sg) -> dget d (KS k) = Some (given a k).
Proof. intros sg a d k Hs H Hk. destruct (C57_values sg a true d Hs H) as (_ & P & _). apply P. exact Hk. Qed.
Lemma prepared_type : forall sg a d n full, In sg sigs -> ps_type sg = Some n -> prepare sg a full = Ok d -> dget d (KS "type") = Some (VInt n).
Proof. intros sg a d n full Hs Hn H. destruct (C57_values sg a full d Hs H) as ((n' & Hn' & T) & _). congruence. Qed.
Lemma prepared_other : forall sg a d k full, In sg sigs -> prepare sg a full = Ok d -> k <> "type" -> ~ In k (ps_params sg) -> dget d (KS k) = None.
Proof.
  intros sg a d k full Hs H Ht Hk. destruct (C57_values sg a full d Hs H) as (_ & _ & P). apply dget_None. intro Hi. apply in_map_iff in Hi as ([key v] & E & Hi). cbn [fst] in E. subst key.
  destruct (P _ _ Hi) as [E|(k' & E & Hk')]; [injection E; contradiction|]. injection E as <-. contradiction.
Qed.
Ltac not_in := let Q := fresh in intro Q; cbn [ps_params sig15 sig18 sig55 sig82 sig164 sig1858 sig2400 sig2411 sig2414 sig2420 sig151 In] in Q; repeat (destruct Q as [Q|Q]; [discriminate Q|]); contradiction.
Ltac in_sigs := unfold sigs; cbn [In]; tauto.
Ltac each_field Hk := cbn [In] in Hk; repeat (destruct Hk as [<-|Hk]; [|]); [..|contradiction Hk].

(** If one of these arguments is left out, the set made with return_full_dict
    cannot be written. *)
Theorem C58_none_refuted : forall sg ks k a d c m fd file u, In (sg, ks) numeric_args -> In k ks -> prepare sg a true = Ok d -> given a k = VNone -> typed_args sg a ->
  exists e, w_exc (write_set c m fd file u d) = Some e.
Proof.
  intros sg ks k a d c m fd file u Hs Hk H Hn Ht.
  assert (Hsg : In sg sigs) by (cbn [numeric_args In] in Hs; repeat (destruct Hs as [Hs|Hs]; [injection Hs as <- <-; unfold sigs; cbn [In]; tauto|]); contradiction).
  assert (Hp : In k (ps_params sg)).
  { assert (X : forallb (fun p => forallb (fun k => existsb (String.eqb k) (ps_params (fst p))) (snd p)) numeric_args = true) by (vm_compute; reflexivity).
    rewrite forallb_forall in X. specialize (X _ Hs). rewrite forallb_forall in X. specialize (X _ Hk). apply existsb_exists in X as (y & Hy & E). apply String.eqb_eq in E. subst. exact Hy. }
  assert (G := prepared_get _ _ _ _ Hsg H Hp). rewrite Hn in G.
  destruct (w_exc (write_set c m fd file u d)) as [e|] eqn:Ew; [eauto|exfalso].
  cbn [numeric_args In] in Hs. repeat (destruct Hs as [Hs|Hs]; [injection Hs as <- <-|]); [..|contradiction Hs].
  all: assert (T := fun n E => prepared_type _ _ _ n _ Hsg E H).
  all: specialize (T _ eq_refl).
  - destruct Ht as (dt & l & Hd). assert (D := prepared_get _ _ _ "data" Hsg H ltac:(cbn [ps_params sig58 In]; tauto)). rewrite Hd in D.
    apply (C72_58 _ _ _ _ _ _ _ _ T D) in Ew. destruct Ew as (F & _ & _ & _ & _ & even & x & xs & x0 & x1 & _ & E1 & E2 & _).
    each_field Hk; try (eapply field_refused; [exact F| | |exact G]; reflexivity). rewrite G in E1. injection E1 as <-. discriminate E2.
  - destruct Ht as (dt & l & Hd). assert (D := prepared_get _ _ _ "r1" Hsg H ltac:(cbn [ps_params sig55 In]; tauto)). rewrite Hd in D.
    apply (C72_55 _ _ _ _ _ _ _ _ T (prepared_other _ _ _ "data" _ Hsg H ltac:(discriminate) ltac:(not_in)) D) in Ew. destruct Ew as (F & _ & n & Cn & _).
    each_field Hk; try (eapply field_refused; [exact F| | |exact G]; reflexivity). eapply count_refused; eassumption.
  - apply (C72_82 _ _ _ _ _ _ T (prepared_other _ _ _ "data" _ Hsg H ltac:(discriminate) ltac:(not_in))) in Ew.
    + destruct Ew as (F & dt & l & E & _). each_field Hk; try (eapply field_refused; [exact F| | |exact G]; reflexivity). congruence.
    + intros dt l E. rewrite (prepared_get _ _ _ "nodes" Hsg H) in E by (cbn [ps_params sig82 In]; tauto). injection E as E. exact (Ht dt l E).
  - apply (C72_164 _ _ _ _ _ _ T (prepared_other _ _ _ "data" _ Hsg H ltac:(discriminate) ltac:(not_in))) in Ew.
    each_field Hk; (eapply field_refused; [exact Ew| | |exact G]; reflexivity).
  - apply (C72_1858 _ _ _ _ _ _ T (prepared_other _ _ _ "data" _ Hsg H ltac:(discriminate) ltac:(not_in))) in Ew.
    each_field Hk; (eapply field_refused; [exact Ew| | |exact G]; reflexivity).
  - apply (C72_2400 _ _ _ _ _ _ T (prepared_other _ _ _ "data" _ Hsg H ltac:(discriminate) ltac:(not_in))) in Ew.
    each_field Hk; (eapply field_refused; [exact Ew| | |exact G]; reflexivity).
  - apply (C72_2414 _ _ _ _ _ _ T (prepared_other _ _ _ "data" _ Hsg H ltac:(discriminate) ltac:(not_in))) in Ew. destruct Ew as [F _].
    each_field Hk; (eapply field_refused; [exact F| | |exact G]; reflexivity).
  - apply (C72_2420 _ _ _ _ _ _ T (prepared_other _ _ _ "data" _ Hsg H ltac:(discriminate) ltac:(not_in))) in Ew. destruct Ew as (F & n & F2).
    each_field Hk; [eapply field_refused; [exact F| | |exact G]; reflexivity|..]; (eapply exact_refused; [exact F2| |exact G]; apply kind_in_In; reflexivity).
  - apply (C72_15 _ _ _ _ _ _ T (prepared_other _ _ _ "data" _ Hsg H ltac:(discriminate) ltac:(not_in))) in Ew. destruct Ew as (n & Cn & _). each_field Hk. eapply count_refused; eassumption.
  - apply (C72_18 _ _ _ _ _ _ T (prepared_other _ _ _ "data" _ Hsg H ltac:(discriminate) ltac:(not_in))) in Ew. destruct Ew as (n & Cn & _). each_field Hk. eapply count_refused; eassumption.
  - apply (C72_2411 _ _ _ _ _ _ T (prepared_other _ _ _ "data" _ Hsg H ltac:(discriminate) ltac:(not_in))) in Ew. destruct Ew as (n & Cn & _). each_field Hk. eapply count_refused; eassumption.
Qed.
Print Assumptions C58_none_refuted.
(** Nodes and coordinate systems: if there is at least one, no column may be left
    out. *)
Definition column_args : list (psig * string * list string) :=
  [(sig15, "node_nums", ["def_cs"; "disp_cs"; "color"; "x"; "y"; "z"]); (sig18, "cs_num", ["cs_type"; "ref_cs_num"; "color"; "method"; "cs_name"; "ref_o"; "x_point"; "xz_point"]);
   (sig2411, "node_nums", ["def_cs"; "disp_cs"; "color"; "x"; "y"; "z"])].
Lemma column_refused : forall d n t k kd nd, Forall (column_ok d n) t -> kind_in t k = Some (kd, nd) -> dget d (KS k) = Some VNone -> False.
Proof.
  intros d n t k kd nd F Hi Hd. rewrite Forall_forall in F. specialize (F _ (kind_in_In _ _ _ _ Hi)). unfold column_ok in F. cbn [fst snd] in F. rewrite Hd in F.
  destruct F as (l & F & _). discriminate F.
Qed.
Theorem C58_column_refuted : forall sg nm ks k a d c m fd file u l, In (sg, nm, ks) column_args -> In k ks -> prepare sg a true = Ok d -> given a k = VNone ->
  entries (given a nm) = Some l -> l <> [] -> exists e, w_exc (write_set c m fd file u d) = Some e.
Proof.
  intros sg nm ks k a d c m fd file u l Hs Hk H Hn Hl Hne.
  assert (Hsg : In sg sigs) by (cbn [column_args In] in Hs; repeat (destruct Hs as [Hs|Hs]; [injection Hs as <- <- <-; unfold sigs; cbn [In]; tauto|]); contradiction).
  assert (Hp : In k (ps_params sg) /\ In nm (ps_params sg)).
  { assert (X : forallb (fun p => existsb (String.eqb (snd (fst p))) (ps_params (fst (fst p))) && forallb (fun k => existsb (String.eqb k) (ps_params (fst (fst p)))) (snd p)) column_args = true) by (vm_compute; reflexivity).
    rewrite forallb_forall in X. specialize (X _ Hs). apply andb_true_iff in X as [X1 X]. rewrite forallb_forall in X. specialize (X _ Hk). cbn [fst snd] in *.
    apply existsb_exists in X as (y & Hy & E). apply String.eqb_eq in E. subst. apply existsb_exists in X1 as (z & Hz & E). apply String.eqb_eq in E. subst. auto. }
  destruct Hp as [Hp Hq]. assert (G := prepared_get _ _ _ _ Hsg H Hp). rewrite Hn in G. assert (G2 := prepared_get _ _ _ _ Hsg H Hq).
  assert (N : forall n, counted d nm n -> n <> 0).
  { intros n (v & l' & E & El & Hlen). rewrite G2 in E. injection E as <-. rewrite Hl in El. injection El as <-. destruct l; [contradiction|]. cbn in Hlen. lia. }
  destruct (w_exc (write_set c m fd file u d)) as [e|] eqn:Ew; [eauto|exfalso].
  cbn [column_args In] in Hs. repeat (destruct Hs as [Hs|Hs]; [injection Hs as <- <- <-|]); [..|contradiction Hs].
  all: assert (T := fun n E => prepared_type _ _ _ n _ Hsg E H).
  all: specialize (T _ eq_refl).
  - apply (C72_15 _ _ _ _ _ _ T (prepared_other _ _ _ "data" _ Hsg H ltac:(discriminate) ltac:(not_in))) in Ew. destruct Ew as (n & Cn & [E|F]); [exact (N _ Cn E)|].
    each_field Hk; (eapply column_refused; [exact F| |exact G]; reflexivity).
  - apply (C72_18 _ _ _ _ _ _ T (prepared_other _ _ _ "data" _ Hsg H ltac:(discriminate) ltac:(not_in))) in Ew. destruct Ew as (n & Cn & [E|F]); [exact (N _ Cn E)|].
    each_field Hk; (eapply column_refused; [exact F| |exact G]; reflexivity).
  - apply (C72_2411 _ _ _ _ _ _ T (prepared_other _ _ _ "data" _ Hsg H ltac:(discriminate) ltac:(not_in))) in Ew. destruct Ew as (n & Cn & [E|F]); [exact (N _ Cn E)|].
    each_field Hk; (eapply column_refused; [exact F| |exact G]; reflexivity).
Qed.
Print Assumptions C58_column_refuted.

(** Texts of type 151 that are left out are written as "None", dates too. *)
Definition texts151 (h : head151) : list (string * str) :=
  [("model_name", a_model h); ("description", a_desc h); ("db_app", a_app h); ("date_db_created", a_date1 h); ("time_db_created", a_time1 h);
   ("date_db_saved", a_date2 h); ("time_db_saved", a_time2 h); ("program", a_prog h)].
Theorem C58_text_refuted : forall a d c m fd ho h k s, prepare sig151 a true = Ok d -> repr151 c d h -> wf151 h -> In (k, s) (texts151 h) -> given a k = VNone ->
  round_trips c m fd ho d (read151 h) /\ dget (read151 h) (KS k) = Some (VStr (lit "None")).
Proof.
  intros a d c m fd ho h k s H R W Hk Hn. split; [eapply text_set_round, set151; eassumption|].
  assert (Hp : In k (ps_params sig151)) by (cbn [texts151 In] in Hk; repeat (destruct Hk as [Hk|Hk]; [injection Hk as <- _; cbn [sig151 ps_params In]; tauto|]); contradiction).
  assert (Hs : In sig151 sigs) by in_sigs. assert (G := prepared_get _ _ _ _ Hs H Hp). rewrite Hn in G.
  assert (X1 : forall t, has as_txt d k t -> t = lit "None") by (intros t (v & E & Hv); rewrite G in E; injection E as <-; unfold as_txt in Hv; cbn in Hv; injection Hv as <-; reflexivity).
  assert (X2 : forall t t', has_or as_txt d k t t' -> t = lit "None") by (intros t t' [E|[E _]]; [auto|congruence]).
  destruct R as (_ & _ & R1 & R2 & R3 & R4 & R5 & R6 & R7 & R8 & _).
  cbn [texts151 In] in Hk; repeat (destruct Hk as [Hk|Hk]; [injection Hk as <- <-|]); [..|contradiction Hk]; unfold read151; cbn [dget key_eqb String.eqb Ascii.eqb Bool.eqb andb].
  - rewrite (X1 _ R1). reflexivity.
  - rewrite (X1 _ R2). reflexivity.
  - rewrite (X1 _ R3). reflexivity.
  - rewrite (X2 _ _ R5). reflexivity.
  - rewrite (X2 _ _ R6). reflexivity.
  - rewrite (X2 _ _ R7). reflexivity.
  - rewrite (X2 _ _ R8). reflexivity.
  - rewrite (X1 _ R4). reflexivity.
Qed.
Print Assumptions C58_text_refuted.

(* ------------------------------------------------------------------ *)
(** ** C75: prepared analysis data at nodes and elements *)

(** prepare_2414 stores the data of a node as "d", the writer asks for
    "data_at_node"; element numbers are no argument at all.  So no such set can be
    written, unless there are no nodes. *)
Theorem C75_refuted : forall a full d c m fd file u, prepare sig2414 a full = Ok d -> ~ equals (given a "analysis_type") 5 ->
  (equals (given a "dataset_location") 1 /\ (exists dt x l, given a "node_nums" = VArr dt (x :: l))
   \/ equals (given a "dataset_location") 2 \/ equals (given a "dataset_location") 3) ->
  exists e, w_exc (write_set c m fd file u d) = Some e.
Proof.
  intros a full d c m fd file u H Ha Hl. assert (Hs : In sig2414 sigs) by in_sigs. destruct (w_exc (write_set c m fd file u d)) as [e|] eqn:Ew; [eauto|exfalso].
  assert (O := fun k => prepared_other _ a d k _ Hs H). destruct (C57_values _ _ _ _ Hs H) as (_ & P & _).
  assert (T : dget d (KS "type") = Some (VInt 2414)) by (eapply prepared_type; eauto; reflexivity).
  apply (C72_2414 _ _ _ _ _ _ T (O "data" ltac:(discriminate) ltac:(not_in))) in Ew. destruct Ew as [F R].
  assert (G : forall k, In k (ps_params sig2414) -> forall v, dget d (KS k) = Some v -> v = given a k).
  { intros k Hk v E. rewrite (P k Hk) in E. destruct (negb full && is_none (given a k)); [discriminate|congruence]. }
  assert (M : forall k, In (k, Int, Must) head2414 -> exists v, dget d (KS k) = Some v).
  { intros k Hk. rewrite Forall_forall in F. specialize (F _ Hk). unfold field_ok in F. cbn [fst snd] in F. destruct (dget d (KS k)); [eauto|discriminate F]. }
  destruct (M "analysis_type" ltac:(cbn; tauto)) as [v Ev]. destruct (M "dataset_location" ltac:(cbn; tauto)) as [w E2].
  destruct (R v Ev) as [_ R2]. rewrite <- (G "analysis_type" ltac:(cbn; tauto) v Ev) in Ha. destruct (R2 Ha) as [_ L].
  rewrite <- (G "dataset_location" ltac:(cbn; tauto) w E2) in Hl.
  assert (N : dget d (KS "element_nums") = None) by (apply O; [discriminate|not_in]).
  destruct Hl as [(Hl & dt & x & l & Hx)|[Hl|Hl]].
  - destruct (L _ _ _ w (or_introl eq_refl) E2 Hl) as (n & Hn & [E|Fc]).
    + subst n. assert (Gn := G "node_nums" ltac:(cbn; tauto)).
      destruct Hn as [(dt' & l' & E & E')|(dt' & l' & E & E')]; apply Gn in E; rewrite Hx in E; [injection E as _ ->; discriminate E'|discriminate E].
    + apply Forall_app in Fc as [_ Fc]. inversion Fc as [|? ? Fd _]; subst. unfold column_ok in Fd. cbn [fst snd] in Fd.
      rewrite (O "data_at_node" ltac:(discriminate) ltac:(not_in)) in Fd. discriminate Fd.
  - destruct (L _ _ _ w (or_intror (or_introl eq_refl)) E2 Hl) as (n & [(dt' & l' & E & _)|(dt' & l' & E & _)] & _); congruence.
  - destruct (L _ _ _ w (or_intror (or_intror (or_introl eq_refl))) E2 Hl) as (n & [(dt' & l' & E & _)|(dt' & l' & E & _)] & _); congruence.
Qed.
Print Assumptions C75_refuted.

(* ------------------------------------------------------------------ *)
(** ** Examples *)

Example C58_all_given_example : forall k, In k (ps_params sig82) ->
  given [("trace_num", VInt 1); ("n_nodes", VInt 2); ("color", VInt 3); ("id", VStr (lit "a")); ("nodes", VArr DInt [VInt 1; VInt 2])] k <> VNone.
Proof. intros k Hk. cbn [sig82 ps_params In] in Hk. repeat (destruct Hk as [<-|Hk]; [discriminate|]). contradiction. Qed.
Example C58_none_example : (exists d, prepare sig164 a164 true = Ok d) /\ given a164 "temp_mode" = VNone /\ typed_args sig164 a164 /\
  In (sig164, ["units_code"; "temp_mode"; "length"; "force"; "temp"; "temp_offset"]) numeric_args.
Proof. split; [eexists; vm_compute; reflexivity|]. split; [reflexivity|]. split; [exact Logic.I|]. cbn [numeric_args In]. tauto. Qed.
Definition a15 : kwargs := Eval vm_compute in [("node_nums", VList [VInt 1; VInt 2]); ("x", VList [fv "1.5"; fv "2"]); ("y", VList [fv "1.5"; fv "2"]); ("z", VList [fv "1.5"; fv "2"])].
Example C58_column_example : (exists d, prepare sig15 a15 true = Ok d) /\ given a15 "color" = VNone /\ entries (given a15 "node_nums") = Some [VInt 1; VInt 2].
Proof. split; [eexists; vm_compute; reflexivity|]. split; reflexivity. Qed.
Definition a151 : kwargs := Eval vm_compute in [("model_name", VStr (lit "m")); ("db_app", VStr (lit "app")); ("program", VStr (lit "p")); ("version_db1", VInt 1); ("version_db2", VInt 2);
  ("file_type", VInt 0); ("date_db_saved", VStr (lit "01-Jan-24")); ("time_db_saved", VStr (lit "00:00:00"))].
Definition h151_none : head151 := Eval vm_compute in
  {| a_model := lit "m"; a_desc := lit "None"; a_app := lit "app"; a_date1 := lit "None"; a_time1 := lit "None"; a_v1 := 1; a_v2 := 2; a_ft := 0;
     a_date2 := lit "01-Jan-24"; a_time2 := lit "00:00:00"; a_prog := lit "p"; a_date3 := now_date noclock; a_time3 := now_time noclock |}.
Example C58_text_example : exists d, prepare sig151 a151 true = Ok d /\ repr151 noclock d h151_none /\ wf151 h151_none /\ given a151 "description" = VNone.
Proof.
  eexists. split; [vm_compute; reflexivity|]. split; [|split; [|reflexivity]].
  - unfold repr151, h151_none. wit.
  - unfold wf151, short_text, h151_none. cbn [a_model a_desc a_app a_date1 a_time1 a_v1 a_v2 a_ft a_date2 a_time2 a_prog a_date3 a_time3]. wit; cbn; lia.
Qed.
(** All arguments of a set of displacements of two nodes. *)
Definition a2414_doc : kwargs := Eval vm_compute in
  [("analysis_dataset_label", VInt 1); ("analysis_dataset_name", VStr (lit "disp")); ("dataset_location", VInt 1); ("id1", VStr []); ("id2", VStr []); ("id3", VStr []); ("id4", VStr []);
   ("id5", VStr []); ("model_type", VInt 1); ("analysis_type", VInt 1); ("data_characteristic", VInt 2); ("result_type", VInt 8); ("data_type", VInt 2);
   ("number_of_data_values_for_the_data_component", VInt 3); ("node_nums", VArr DInt [VInt 1; VInt 2]); ("d", VArr2 DFloat [[fv "1"; fv "2"; fv "3"]; [fv "4"; fv "5"; fv "6"]])].
Example C75_example : (exists d, prepare sig2414 a2414_doc false = Ok d) /\ ~ equals (given a2414_doc "analysis_type") 5 /\ equals (given a2414_doc "dataset_location") 1 /\
  given a2414_doc "node_nums" = VArr DInt [VInt 1; VInt 2].
Proof.
  split; [eexists; vm_compute; reflexivity|]. split; [intros [E|[E|[E _]]]; discriminate E|]. split; [left; reflexivity|reflexivity].
Qed.
