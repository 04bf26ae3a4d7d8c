(** C64: which arguments the prepare functions take, against the documented
    record formats. *)
From Coq Require Import String List NArith ZArith Bool Lia.
Import ListNotations.
From Verif Require Import PyBase PyNum PyVal Utf8 Tools DsGroups Prepare PropPrepare.
From Coq Require Import Lia.
Open Scope string_scope.
Open Scope list_scope.
Open Scope nat_scope.

(** What a field holds: an integer, one of the listed codes, a real, a text, a
    number that may be complex; the plural forms stand for lists and arrays. *)
Inductive holding := HInt | HCode (zs : list Z) | HReal | HText | HNum | HInts | HCodes (zs : list Z) | HReals | HTexts.
(** Values that such a field is made for. *)
Definition fits (h : holding) (v : pyval) : Prop :=
  match h with
  | HInt => exists z, v = VInt z /\ int64_ok z = true
  | HCode zs => exists z, v = VInt z /\ In z zs
  | HReal => exists f, v = VFloat f
  | HText => exists s, v = VStr s
  | HNum => (exists a b, v = VCplx a b) \/ (exists f, v = VFloat f) \/ (exists l, v = VArr DFloat l) \/ (exists l, v = VArr DCplx l)
  | HInts => (exists l, v = VArr DInt l) \/ (exists zs, v = VList (map VInt zs) /\ zs <> [] /\ Forall (fun z => int64_ok z = true) zs)
  | HCodes zs => exists l, v = VList (map VInt l) /\ l <> [] /\ incl l zs
  | HReals => (exists l, v = VArr DFloat l) \/ (exists fs, v = VList (map VFloat fs))
  | HTexts => exists l, v = VList (map VStr l)
  end.
(** Values that do not belong there. *)
Definition scalar (v : pyval) : Prop := match v with VBool _ | VInt _ | VFloat _ | VCplx _ _ | VStr _ => True | _ => False end.
Definition unfit (h : holding) (v : pyval) : Prop :=
  match h with
  | HInt => scalar v /\ forall z, v <> VInt z
  | HCode zs => (exists s, v = VStr s) \/ (exists z, v = VInt z /\ ~ In z zs)
  | HReal => scalar v /\ forall f, v <> VFloat f
  | HText => (scalar v /\ forall s, v <> VStr s) \/ (exists l, v = VList l) \/ (exists dt l, v = VArr dt l)
  | HNum => (exists s, v = VStr s) \/ (exists b, v = VBool b) \/ (exists l, v = VArr DStr l) \/ (exists l, v = VArr DBool l)
  | HInts => (exists s, v = VStr s) \/ (exists dt l, v = VArr dt l /\ dt <> DInt) \/ (exists fs, v = VList (map VFloat fs))
  | HCodes zs => exists l z, v = VList l /\ In (VInt z) l /\ ~ In z zs
  | HReals => (exists s, v = VStr s) \/ (exists dt l, v = VArr dt l /\ dt <> DFloat) \/ (exists zs, v = VList (map VInt zs) /\ zs <> [] /\ Forall (fun z => int64_ok z = true) zs)
  | HTexts => exists l x, v = VList l /\ In x l /\ forall s, x <> VStr s
  end.

(** [upto a b]: the codes a, a + 1, ..., b. *)
Definition upto (a b : Z) : list Z := map (fun k => (a + Z.of_nat k)%Z) (seq 0 (Z.to_nat (b - a + 1))).
Definition entry := (Z * string * holding)%type.
Definition for_type (ty : Z) (l : list (list string * holding)) : list entry := flat_map (fun ph => map (fun p => (ty, p, snd ph)) (fst ph)) l.
(** The documentation ([get_structure_N], the record formats). *)
Definition ids : list string := ["id1"; "id2"; "id3"; "id4"; "id5"].
Definition doc_fields : list entry :=
  for_type 15 [(["node_nums"; "def_cs"; "disp_cs"; "color"], HInts); (["x"; "y"; "z"], HReals)] ++
  for_type 55 [(ids, HText); (["model_type"], HCode (upto 0 3)); (["data_ch"], HCode (upto 0 5)); (["spec_data_type"], HCode (upto 0 18));
    (["data_type"], HCode [2; 5]%Z); (["n_data_per_node"; "load_case"; "mode_n"; "freq_step_n"], HInt);
    (["freq"; "modal_damp_vis"; "modal_damp_his"], HReal); (["r1"; "r2"; "r3"; "r4"; "r5"; "r6"; "eig"; "modal_a"; "modal_b"], HNum); (["node_nums"], HInts)] ++
  for_type 58 [(["binary"; "abscissa_spacing"], HCode [0; 1]%Z); (ids, HText); (["func_type"], HCode (upto 0 27));
    (["ver_num"; "load_case_id"; "rsp_node"; "ref_node"; "num_pts"], HInt); (["rsp_ent_name"; "ref_ent_name"], HText);
    (["rsp_dir"; "ref_dir"], HCode [0; 1; -1; 2; -2; 3; -3; 4; -4; 5; -5; 6; -6]%Z); (["ord_data_type"], HCode [2; 4; 5; 6]%Z);
    (["abscissa_min"; "abscissa_inc"; "z_axis_value"], HReal);
    (["abscissa_len_unit_exp"; "abscissa_force_unit_exp"; "abscissa_temp_unit_exp"; "ordinate_len_unit_exp"; "ordinate_force_unit_exp"; "ordinate_temp_unit_exp";
      "orddenom_len_unit_exp"; "orddenom_force_unit_exp"; "orddenom_temp_unit_exp"; "z_axis_len_unit_exp"; "z_axis_force_unit_exp"; "z_axis_temp_unit_exp"], HInt);
    (["abscissa_axis_units_lab"; "ordinate_axis_units_lab"; "orddenom_axis_units_lab"; "z_axis_axis_units_lab"], HText); (["data"], HNum)] ++
  for_type 82 [(["trace_num"; "n_nodes"; "color"], HInt); (["id"], HText); (["nodes"], HInts)] ++
  for_type 151 [(["model_name"; "description"; "db_app"; "date_db_created"; "time_db_created"; "date_db_saved"; "time_db_saved"; "program"; "date_db_written"; "time_db_written"], HText);
    (["version_db1"; "version_db2"], HInt); (["file_type"], HCode (upto 0 2))] ++
  for_type 164 [(["units_description"], HText); (["temp_mode"], HCode [1; 2]%Z); (["length"; "force"; "temp"; "temp_offset"], HReal)] ++
  for_type 1858 [(["record_num"; "octave_format"; "measurement_run"], HInt);
    (["z_rpm_value"; "z_time_value"; "z_order_value"; "num_of_samples"; "user_value_1"; "user_value_2"; "user_value_3"; "user_value_4"; "exponential_window_damping_factor"], HReal);
    (["response_direction"; "reference_direction"], HText)] ++
  for_type 2400 [(["model_uid"; "entity_type"; "entity_subtype"; "version_number"; "idm_version_id"; "idm_item_id"; "primary_parent_uid"], HInt);
    (["entity_name"; "part_number"; "date"; "time"], HText)] ++
  for_type 2411 [(["node_nums"; "def_cs"; "disp_cs"; "color"], HInts); (["x"; "y"; "z"], HReals)] ++
  for_type 2412 [(["element_nums"; "fe_descriptor"; "phys_table"; "mat_table"; "color"; "num_nodes"; "nodes_nums"; "beam_orientation"; "beam_foreend_cross"; "beam_aftend_cross"], HInts)] ++
  for_type 2414 [(["analysis_dataset_label"; "number_of_data_values_for_the_data_component"; "design_set_id"; "iteration_number"; "solution_set_id"; "boundary_condition"; "load_set";
      "mode_number"; "time_step_number"; "frequency_number"; "creation_option"; "number_retained"], HInt);
    ("analysis_dataset_name" :: ids, HText); (["dataset_location"], HCode [1; 2; 3; 5]%Z); (["model_type"], HCode (upto 0 3));
    (["analysis_type"], HCode [0; 1; 2; 3; 4; 5; 6; 7; 9]%Z); (["data_characteristic"], HCode [0; 1; 2; 3; 4; 6]%Z); (["data_type"], HCode [1; 2; 4; 5; 6]%Z);
    (["time"; "frequency"; "eigenvalue"; "modal_mass"; "viscous_damping"; "hysteretic_damping"; "real_part_eigenvalue"; "imaginary_part_eigenvalue";
      "real_part_of_modal_A_or_modal_mass"; "imaginary_part_of_modal_A_or_modal_mass"; "real_part_of_modal_B_or_modal_mass"; "imaginary_part_of_modal_B_or_modal_mass"], HReal);
    (["node_nums"], HInts); (["d"], HReals); (["x"; "y"; "z"], HNum)] ++
  for_type 2420 [(["Part_UID"], HInt); (["Part_Name"], HText); (["CS_sys_labels"; "CS_colors"], HInts); (["CS_types"], HCodes (upto 0 2)); (["CS_names"], HTexts); (["CS_matrices"], HReals)].
(** Fields where the functions take other codes than documented: first the
    documented codes, then what is taken. *)
Definition specific58 : list Z := [0; 1; 2; 3; 5; 6; 8; 9; 11; 12; 13; 15; 16; 17; 18; 19; 20]%Z.
Definition results2414 : list Z := upto 2 25 ++ upto 27 32 ++ upto 34 47 ++ upto 93 99 ++ upto 301 305.
Definition other_codes : list (entry * holding) :=
  [(55%Z, "analysis_type", HCode (upto 0 7), HCode [2; 3; 5; 7]%Z);
   (58%Z, "abscissa_spec_data_type", HCode specific58, HCode (upto 0 20)); (58%Z, "ordinate_spec_data_type", HCode specific58, HCode (upto 0 20));
   (58%Z, "orddenom_spec_data_type", HCode specific58, HCode (upto 0 20)); (58%Z, "z_axis_spec_data_type", HCode specific58, HCode (upto 0 20));
   (164%Z, "units_code", HCode (upto 1 9), HCode (upto 0 9));
   (1858%Z, "weighting_type", HCode (upto 0 4), HInt); (1858%Z, "window_type", HCode (upto 0 6), HInt); (1858%Z, "amplitude_units", HCode (upto 0 3), HInt);
   (1858%Z, "normalization_method", HCode (upto 0 3), HInt); (1858%Z, "abscissa_data_type_qualifier", HCode (upto 0 3), HInt);
   (1858%Z, "ordinate_numerator_data_type_qualifier", HCode (upto 0 3), HInt); (1858%Z, "ordinate_denominator_data_type_qualifier", HCode (upto 0 3), HInt);
   (1858%Z, "z_axis_data_type_qualifier", HCode (upto 0 3), HInt); (1858%Z, "sampling_type", HCode (upto 0 3), HInt);
   (2400%Z, "optimization_switches", HCode (upto 0 3), HInt); (2414%Z, "result_type", HCode results2414, HInt)].

(** The prepare function of a type. *)
Definition sig_of (ty : Z) : option psig := find (fun sg => match ps_type sg with Some t => (t =? ty)%Z | None => false end) sigs.

(* ------------------------------------------------------------------ *)
(** ** Checks that amount to a holding *)

Definition checks_of (sg : psig) (p : string) : list check := map snd (filter (fun pc => String.eqb (fst pc) p) (ps_checks sg)).
Definition same_codes (a b : list Z) : bool := forallb (fun z => existsb (Z.eqb z) b) a && forallb (fun z => existsb (Z.eqb z) a) b.
Definition tests (h : holding) (cs : list check) : bool :=
  match h, cs with
  | HInt, [CInt] | HInt, [CIntT] | HInt, [CIntIs] | HInt, [CIntT; CInt] => true
  | HCode zs, [CIn l] => same_codes zs l
  | HCode zs, [CRange lo hi] => same_codes zs (zrange lo hi)
  | HReal, [CFloat] | HReal, [CFloatT] | HReal, [CFloatIs] => true
  | HText, [CStrT] | HText, [CStrIs] => true
  | HNum, [CNum] | HNum, [CFloatCplx] => true
  | HInts, [CInt] | HInts, [CSeq; CInt] => true
  | HCodes zs, [CCsTypes; CIntV] => same_codes zs [0; 1; 2]%Z && forallb int64_ok zs
  | HReals, [CFloat] => true
  | HTexts, [CCsNames] => true
  | _, _ => false
  end.
Lemma same_in : forall a b, same_codes a b = true -> forall z, In z a <-> In z b.
Proof.
  intros a b H z. unfold same_codes in H. apply andb_true_iff in H as [H1 H2]. rewrite forallb_forall in H1, H2.
  split; intro Hz; [specialize (H1 z Hz); clear H2; rename H1 into G|specialize (H2 z Hz); clear H1; rename H2 into G]; apply existsb_exists in G as (y & Hy & E); apply Z.eqb_eq in E; subst y; exact Hy.
Qed.
Lemma kind_zs : forall zs, zs <> [] -> Forall (fun z => int64_ok z = true) zs -> np_kind (VList (map VInt zs)) = Ok KInt.
Proof. exact C57_int_list. Qed.
Lemma fits_pass : forall h cs v, tests h cs = true -> fits h v -> Forall (fun c => admits c v) cs.
Proof.
  assert (I64 : forall z, int64_ok z = true -> np_kind (VInt z) = Ok KInt) by (intros z Hz; unfold np_kind; cbn [shape deep_kind]; rewrite Hz; reflexivity).
  intros h cs v Ht Hf. destruct h.
  - destruct Hf as (z & -> & Hz). specialize (I64 z Hz).
    destruct cs as [|[] [|[] [|]]]; try discriminate; repeat (apply Forall_cons || apply Forall_nil); cbn [admits]; eauto.
  - destruct Hf as (z & -> & Hz). destruct cs as [|[] [|]]; try discriminate; cbn [tests] in Ht; apply (same_in _ _) with (z := z) in Ht; apply Ht in Hz; repeat (apply Forall_cons || apply Forall_nil); cbn [admits].
    + right. exists z. split; [exact Hz|]. left. cbn. apply Z.eqb_refl.
    + right. exists z. split; [apply zrange_in; exact Hz|]. cbn. apply Z.eqb_refl.
  - destruct Hf as (f & ->). destruct cs as [|[] [|]]; try discriminate; repeat (apply Forall_cons || apply Forall_nil); cbn [admits]; right; try reflexivity; eauto.
  - destruct Hf as (s & ->). destruct cs as [|[] [|]]; try discriminate; repeat (apply Forall_cons || apply Forall_nil); cbn [admits]; eauto.
  - destruct cs as [|[] [|]]; try discriminate; repeat (apply Forall_cons || apply Forall_nil); cbn [admits]; destruct Hf as [(a & b & ->)|[(f & ->)|[(l & ->)|(l & ->)]]]; right; cbn; auto.
  - assert (K : np_kind v = Ok KInt) by (destruct Hf as [(l & ->)|(zs & -> & Hn & Hz)]; [reflexivity|apply kind_zs; assumption]).
    destruct cs as [|[] [|[] [|]]]; try discriminate; repeat (apply Forall_cons || apply Forall_nil); cbn [admits]; auto.
    destruct Hf as [(l & ->)|(zs & -> & _)]; [right; right; left; eauto|right; left; eauto].
  - destruct Hf as (l & -> & Hn & Hi). destruct cs as [|[] [|[] [|]]]; try discriminate. cbn [tests] in Ht. apply andb_true_iff in Ht as [Hs H64].
    rewrite forallb_forall in H64. repeat (apply Forall_cons || apply Forall_nil); cbn [admits].
    + intros x [(l' & E & Hx)|[(dt & l' & E & _)|(dt & l' & r & E & _)]]; try discriminate. injection E as <-. apply in_map_iff in Hx as (z & <- & Hz).
      apply Hi in Hz. apply (same_in _ _ Hs) in Hz. cbn [in_tuple]. f_equal. apply existsb_exists. exists z. split; [exact Hz|]. cbn. apply Z.eqb_refl.
    + right. apply kind_zs; [exact Hn|]. rewrite Forall_forall. intros z Hz. apply H64. apply Hi. exact Hz.
  - assert (K : np_kind v = Ok KFloat) by (destruct Hf as [(l & ->)|(fs & ->)]; [reflexivity|apply C57_float_list]).
    destruct cs as [|[] [|]]; try discriminate; repeat (apply Forall_cons || apply Forall_nil); cbn [admits]; auto.
  - destruct Hf as (l & ->). destruct cs as [|[] [|]]; try discriminate; repeat (apply Forall_cons || apply Forall_nil); cbn [admits]. right. right. left. exists (map VStr l). split; [reflexivity|].
    rewrite Forall_map, Forall_forall. eauto.
Qed.
Lemma unfit_fail : forall h cs v, tests h cs = true -> unfit h v -> ~ Forall (fun c => admits c v) cs.
Proof.
  assert (F1 : forall c cs v, ~ admits c v -> ~ Forall (fun c => admits c v) (c :: cs)) by (intros c cs v H F; inversion F; subst; contradiction).
  intros h cs v Ht Hu. destruct h.
  - destruct Hu as [Hs Hn].
    assert (K : v <> VNone /\ np_kind v <> Ok KInt /\ ~ exists z, v = VInt z).
    { destruct v; cbn in Hs; try contradiction; repeat split; try discriminate; try (intros [z0 E]; discriminate). all: exfalso; eapply Hn; reflexivity. }
    destruct K as (K1 & K2 & K3). destruct cs as [|[] cs]; try discriminate; apply F1; cbn [admits]; tauto.
  - destruct cs as [|[] [|]]; try discriminate; cbn [tests] in Ht; apply F1; cbn [admits].
    + destruct Hu as [(s & ->)|(z & -> & Hz)]; intros [E|(y & Hy & [E|(dt & x & E & _)])]; try discriminate. cbn in E. apply Z.eqb_eq in E. subst y. apply Hz. apply (same_in _ _ Ht). exact Hy.
    + destruct Hu as [(s & ->)|(z & -> & Hz)]; intros [E|(y & Hy & E)]; try discriminate. cbn in E. apply Z.eqb_eq in E. subst y. apply Hz. apply (same_in _ _ Ht). apply zrange_in. exact Hy.
  - destruct Hu as [Hs Hn].
    assert (K : v <> VNone /\ np_kind v <> Ok KFloat /\ ~ exists f, v = VFloat f).
    { destruct v; cbn in Hs; try contradiction; repeat split; try discriminate; try (intros [z0 E]; discriminate); try (exfalso; eapply Hn; reflexivity).
      unfold np_kind. cbn [shape deep_kind]. destruct (int64_ok z); discriminate. }
    destruct K as (K1 & K2 & K3). destruct cs as [|[] cs]; try discriminate; apply F1; cbn [admits]; tauto.
  - assert (K : v <> VNone /\ ~ exists s, v = VStr s).
    { destruct Hu as [[Hs Hn]|[(l & ->)|(dt & l & ->)]].
      - split; [intros ->; exact Hs|]. intros (s & E). exact (Hn s E).
      - split; [discriminate|]. intros (s & E). discriminate.
      - split; [discriminate|]. intros (s & E). discriminate. }
    destruct K as (K1 & K2). destruct cs as [|[] cs]; try discriminate; apply F1; cbn [admits]; tauto.
  - assert (K : v <> VNone /\ np_kind v <> Ok KInt /\ np_kind v <> Ok KFloat /\ np_kind v <> Ok KCplx).
    { destruct Hu as [(s & ->)|[(b & ->)|[(l & ->)|(l & ->)]]]; repeat split; discriminate. }
    destruct K as (K1 & K2 & K3 & K4). destruct cs as [|[] cs]; try discriminate; apply F1; cbn [admits]; tauto.
  - assert (K : v <> VNone /\ np_kind v <> Ok KInt).
    { destruct Hu as [(s & ->)|[(dt & l & -> & Hd)|(fs & ->)]]; split; try discriminate.
      - destruct dt; try discriminate. contradiction.
      - rewrite C57_float_list. discriminate. }
    destruct K as (K1 & K2). destruct cs as [|[] [|[] [|]]]; try discriminate; intro F; inversion F as [|? ? A B]; subst.
    + cbn [admits] in A. tauto.
    + inversion B as [|? ? A' _]; subst. cbn [admits] in A'. tauto.
  - destruct Hu as (l & z & -> & Hi & Hz). destruct cs as [|[] [|[] [|]]]; try discriminate. cbn [tests] in Ht. apply andb_true_iff in Ht as [Hs _].
    apply F1. cbn [admits]. intro A. specialize (A (VInt z) (or_introl (ex_intro _ l (conj eq_refl Hi)))). cbn [in_tuple] in A. injection A as A.
    apply Hz. apply (same_in _ _ Hs). change (existsb (py_eqZ (VInt z)) [0; 1; 2]%Z = true) in A. apply existsb_exists in A as (y & Hy & E). cbn in E. apply Z.eqb_eq in E. subst y. exact Hy.
  - assert (K : v <> VNone /\ np_kind v <> Ok KFloat).
    { destruct Hu as [(s & ->)|[(dt & l & -> & Hd)|(zs & -> & Hn & Hz)]]; split; try discriminate.
      - destruct dt; try discriminate. contradiction.
      - rewrite kind_zs by assumption. discriminate. }
    destruct K as (K1 & K2). destruct cs as [|[] [|]]; try discriminate; apply F1; cbn [admits]; tauto.
  - destruct Hu as (l & x & -> & Hi & Hx). destruct cs as [|[] [|]]; try discriminate. apply F1. cbn [admits].
    intros [E|[(s & E)|[(l' & E & F)|[(l' & E)|[(dt & E)|(dt & E)]]]]]; try discriminate. injection E as <-. rewrite Forall_forall in F. destruct (F x Hi) as (s & E). exact (Hx s E).
Qed.
Lemma checks_in : forall sg p c, In c (checks_of sg p) <-> In (p, c) (ps_checks sg).
Proof.
  intros sg p c. unfold checks_of. rewrite in_map_iff. split.
  - intros ([q c'] & E & Hi). cbn in E. subst c'. apply filter_In in Hi as [Hi Hp]. apply String.eqb_eq in Hp. cbn in Hp. subst q. exact Hi.
  - intro Hi. exists (p, c). split; [reflexivity|]. apply filter_In. split; [exact Hi|]. apply String.eqb_refl.
Qed.
(** Adding an argument that passes its checks. *)
Lemma prepare_more : forall sg a full d p v, In sg sigs -> prepare sg a full = Ok d -> In p (ps_params sg) -> Forall (fun c => admits c v) (checks_of sg p) ->
  exists d', prepare sg ((p, v) :: a) full = Ok d'.
Proof.
  intros sg a full d p v Hs H Hp Hc. apply C57_accepted in H as (Ha & Hk & _). eexists. apply C57_accepted. split; [|split; [|reflexivity]].
  - assert (R := sigs_regular _ Hs). unfold regular in R. rewrite !andb_true_iff in R. destruct R as (_ & R). apply Nat.eqb_eq in R.
    unfold accepts in *. rewrite R in *. cbn [firstn forallb] in *. rewrite andb_true_r in *. cbn [fst]. rewrite Ha, andb_true_r. apply existsb_exists. exists p. split; [exact Hp|apply String.eqb_refl].
  - intros q c Hi. rewrite arg_given by exact Hs. unfold given. cbn [kwget]. destruct (String.eqb q p) eqn:E.
    + apply String.eqb_eq in E. subst q. apply C57_checks. rewrite Forall_forall in Hc. apply Hc. apply checks_in. exact Hi.
    + specialize (Hk q c Hi). rewrite arg_given in Hk by exact Hs. exact Hk.
Qed.
Lemma prepare_one : forall sg a full d p, In sg sigs -> prepare sg a full = Ok d -> Forall (fun c => admits c (given a p)) (checks_of sg p).
Proof.
  intros sg a full d p Hs H. apply C57_accepted in H as (_ & Hk & _). rewrite Forall_forall. intros c Hc. apply checks_in in Hc. apply C57_checks. rewrite <- (arg_given sg) by exact Hs. apply Hk. exact Hc.
Qed.

(* ------------------------------------------------------------------ *)
(** ** C64 *)

Definition sound (e : entry) : bool :=
  match sig_of (fst (fst e)) with Some sg => existsb (String.eqb (snd (fst e))) (ps_params sg) && tests (snd e) (checks_of sg (snd (fst e))) | None => false end.
Lemma sig_in : forall ty sg, sig_of ty = Some sg -> In sg sigs.
Proof. intros ty sg H. apply find_some in H. apply H. Qed.
Lemma sound_fits : forall ty p h, sound (ty, p, h) = true -> exists sg, sig_of ty = Some sg /\ In p (ps_params sg) /\
  (forall a full d v, prepare sg a full = Ok d -> fits h v -> exists d', prepare sg ((p, v) :: a) full = Ok d') /\
  (forall a full d, prepare sg a full = Ok d -> ~ unfit h (given a p)).
Proof.
  intros ty p h H. unfold sound in H. cbn [fst snd] in H. destruct (sig_of ty) as [sg|] eqn:E; [|discriminate]. exists sg. split; [reflexivity|].
  apply andb_true_iff in H as [Hp Ht]. apply existsb_exists in Hp as (q & Hq & Ep). apply String.eqb_eq in Ep. subst q. assert (Hs := sig_in _ _ E).
  split; [exact Hq|]. split.
  - intros a full d v Hd Hf. eapply prepare_more; [exact Hs|exact Hd|exact Hq|]. eapply fits_pass; eassumption.
  - intros a full d Hd Hu. exact (unfit_fail _ _ _ Ht Hu (prepare_one sg a full d p Hs Hd)).
Qed.
(** The documented fields: what fits is taken, whatever the other arguments; what
    does not fit makes the call fail. *)
Theorem C64_fields : forall ty p h, In (ty, p, h) doc_fields -> exists sg, sig_of ty = Some sg /\ In p (ps_params sg) /\
  (forall a full d v, prepare sg a full = Ok d -> fits h v -> exists d', prepare sg ((p, v) :: a) full = Ok d') /\
  (forall a full d, prepare sg a full = Ok d -> ~ unfit h (given a p)).
Proof.
  intros ty p h H. apply sound_fits. revert H. generalize (ty, p, h). apply forallb_forall. vm_compute. reflexivity.
Qed.
Print Assumptions C64_fields.
(** The fields with other codes than documented: which ones are taken ... *)
Theorem C64_other_codes : forall ty p h k, In (ty, p, h, k) other_codes -> exists sg, sig_of ty = Some sg /\ In p (ps_params sg) /\
  (forall a full d v, prepare sg a full = Ok d -> fits k v -> exists d', prepare sg ((p, v) :: a) full = Ok d') /\
  (forall a full d, prepare sg a full = Ok d -> ~ unfit k (given a p)).
Proof.
  intros ty p h k H. apply sound_fits. assert (A : forallb (fun ek => sound (fst (fst (fst ek)), snd (fst (fst ek)), snd ek)) other_codes = true) by (vm_compute; reflexivity).
  rewrite forallb_forall in A. exact (A _ H).
Qed.
Print Assumptions C64_other_codes.
(** ... and that documented codes are refused or others taken. (Result types of
    2414 above 1000 are documented as user defined; the code found here is below.) *)
Definition single (sg : psig) (p : string) (z : Z) : bool := match prepare sg [(p, VInt z)] false with Ok _ => true | Err _ => false end.
Theorem C64_codes_refuted : forall ty p h k, In (ty, p, h, k) other_codes -> exists sg zs z, sig_of ty = Some sg /\ h = HCode zs /\ (z < 1000)%Z /\
  (In z zs /\ single sg p z = false \/ ~ In z zs /\ single sg p z = true).
Proof.
  set (ok := fun x : entry * holding => match sig_of (fst (fst (fst x))), snd (fst x) with
    | Some sg, HCode zs => existsb (fun z => xorb (existsb (Z.eqb z) zs) (single sg (snd (fst (fst x))) z)) (upto (-1) 30) | _, _ => false end).
  assert (A : forallb ok other_codes = true) by (vm_compute; reflexivity). rewrite forallb_forall in A.
  intros ty p h k H. specialize (A _ H). unfold ok in A. cbn [fst snd] in A. destruct (sig_of ty) as [sg|]; [|discriminate]. destruct h; try discriminate.
  apply existsb_exists in A as (z & Hz & X). exists sg, zs, z. split; [reflexivity|]. split; [reflexivity|].
  split; [unfold upto in Hz; apply in_map_iff in Hz as (j & <- & Hj); apply in_seq in Hj; lia|]. destruct (existsb (Z.eqb z) zs) eqn:E.
  - left. split; [apply existsb_exists in E as (y & Hy & Ey); apply Z.eqb_eq in Ey; subst y; exact Hy|]. destruct (single sg p z); [discriminate|reflexivity].
  - right. split; [|destruct (single sg p z); [reflexivity|discriminate]]. intro Hi. assert (Y : existsb (Z.eqb z) zs = true); [|congruence]. apply existsb_exists. exists z. split; [exact Hi|apply Z.eqb_refl].
Qed.
Print Assumptions C64_codes_refuted.
(** The parameters in neither list. *)
Definition listed (ty : Z) (p : string) : bool := existsb (fun e => (fst (fst e) =? ty)%Z && String.eqb (snd (fst e)) p) (doc_fields ++ map fst other_codes).
Theorem C64_rest : flat_map (fun sg => match ps_type sg with Some ty => map (fun p => (ty, p)) (filter (fun p => negb (listed ty p)) (ps_params sg)) | None => [] end) sigs =
  map (fun p => (18%Z, p)) (ps_params sig18) ++ [(55%Z, "modal_m")] ++ map (fun p => (58%Z, p)) ["x"; "spec_data_type"; "byte_ordering"; "fp_format"; "n_ascii_lines"; "n_bytes"] ++ [(2400%Z, "status_mask")].
Proof. vm_compute. reflexivity. Qed.
Print Assumptions C64_rest.
(** Those take any value, except the mask. *)
Theorem C64_unchecked : forall sg p a full d v, In sg sigs -> In p (ps_params sg) -> prepare sg a full = Ok d ->
  (exists ty, ps_type sg = Some ty /\ listed ty p = false) -> p <> "status_mask" -> exists d', prepare sg ((p, v) :: a) full = Ok d'.
Proof.
  set (ok := fun sg => match ps_type sg with Some ty => forallb (fun p => listed ty p || String.eqb p "status_mask" || match checks_of sg p with [] => true | _ => false end) (ps_params sg) | None => false end).
  assert (A : forallb ok sigs = true) by (vm_compute; reflexivity). rewrite forallb_forall in A.
  intros sg p a full d v Hs Hp Hd (ty & Ht & Hl) Hm. specialize (A _ Hs). unfold ok in A. rewrite Ht, forallb_forall in A. specialize (A _ Hp). rewrite Hl in A.
  destruct (String.eqb_spec p "status_mask") as [E|_]; [contradiction|]. cbn [orb] in A. destruct (checks_of sg p) eqn:E; [|discriminate].
  eapply prepare_more; [exact Hs|exact Hd|exact Hp|]. rewrite E. constructor.
Qed.
Print Assumptions C64_unchecked.
Example C64_unchecked_example : prepare sig58 [("x", VStr (lit "abc"))] false = Ok [(KS "type", VInt 58); (KS "x", VStr (lit "abc"))].
Proof. vm_compute. reflexivity. Qed.

Example C64_example : prepare sig58 [("func_type", VInt 27); ("rsp_dir", VInt (-6)); ("id1", VStr (lit "a"))] false =
    Ok [(KS "type", VInt 58); (KS "id1", VStr (lit "a")); (KS "func_type", VInt 27); (KS "rsp_dir", VInt (-6))] /\
  prepare sig58 [("func_type", VInt 28)] false = Err ValueError /\ prepare sig1858 [("num_of_samples", VInt 3)] false = Err TypeError /\
  prepare sig1858 [("window_type", VInt 99)] false = Ok [(KS "type", VInt 1858); (KS "window_type", VInt 99)] /\
  prepare sig58 [("abscissa_spec_data_type", VInt 4)] false = Ok [(KS "type", VInt 58); (KS "abscissa_spec_data_type", VInt 4)] /\
  prepare sig164 [("units_code", VInt 0)] false = Ok [(KS "type", VInt 164); (KS "units_code", VInt 0)] /\ prepare sig55 [("analysis_type", VInt 4)] false = Err ValueError.
Proof. repeat split; vm_compute; reflexivity. Qed.
