(** One copy settles a file: what has been read is written and read again as it
    is, whatever the texts of the original set and the order of its elements
    were. *)
From Coq Require Import String List NArith ZArith Bool Lia.
Import ListNotations.
From Verif Require Import PyBase PyNum PyVal Utf8 Tools DsNodes DsHeaders DsGroups Ds55 Ds58 Ds2414 Uff Facts FloatFacts DecFacts FloatText CplxFacts DictFacts Scan Container Append
  ContainerThms Utf8Facts Lines Stored Cells Rows RtNodes RtCs RtHeads RtElems RtGroups RtNodal RtFun RtFunSet RtAnalysis Witness
  PropNodes PropHeads PropGroups PropNodal PropFun PropAnalysis PropHistory PropReread Stable Stable2 Stable3 PropStable PropRegroup.
From Coq Require Import Lia SpecFloat.
Open Scope string_scope.
Open Scope list_scope.
Open Scope nat_scope.

(** Texts may have surrounding blanks and exceed their field, elements may stand
    in any order, numbers may be subnormal; complex numbers have no negative zero. *)
Definition calm (x : content) : Prop :=
  match x with
  | X15 l => valid15 l
  | X55 r => loose_modes (v_modes r) /\ loose_rows (v_kind r) (v_rows r)
  | X58 b r => loose_x b r /\ Forall (fun p => loose_y (q_cplx r) (snd p)) (q_pts r)
  | X82 t => apart (t_nodes t)
  | X2414 a => loose_body (n_dt a) (n_body a)
  | X2429 _ _ => False
  | X18 _ | X151 _ | X164 _ | X1858 _ | X2400 _ | X2411 _ | X2412 _ | X2420 _ | X2467 _ => True
  end.

(* ------------------------------------------------------------------ *)
(** ** Texts *)

Definition clip (w : nat) (s : str) : str := strip (firstn w s).
Lemma strip_part : forall s, exists a b, s = a ++ strip s ++ b.
Proof. intro s. destruct (strip_by_decomp is_ws s) as (a & b & E & _). exists a, b. exact E. Qed.
Lemma rstrip_part : forall s, exists b, s = rstrip s ++ b.
Proof.
  intro s. unfold rstrip, rstrip_by. assert (D : forall l : str, exists a, l = a ++ dropwhile is_ws l).
  { induction l as [|c l [a IH]]; [exists []; reflexivity|]. cbn [dropwhile]. destruct (is_ws c); [exists (c :: a); cbn [app]; f_equal; exact IH|exists []; reflexivity]. }
  destruct (D (rev s)) as (a & E). exists (rev a). rewrite <- rev_app_distr, <- E, rev_involutive. reflexivity.
Qed.
Lemma clip_part : forall w s, exists a b, s = a ++ clip w s ++ b.
Proof.
  intros w s. destruct (strip_part (firstn w s)) as (a & b & E). exists a, (b ++ skipn w s). unfold clip.
  rewrite <- (firstn_skipn w s) at 1. rewrite E at 1. rewrite <- !app_assoc. reflexivity.
Qed.
Lemma strip_len : forall s, length (strip s) <= length s.
Proof. intro s. destruct (strip_part s) as (a & b & E). apply (f_equal (@length N)) in E. rewrite !app_length in E. lia. Qed.
Lemma clip_trim : forall w s, trim w (clip w s).
Proof.
  intros w s. split; [apply strip_by_idem|]. unfold clip. eapply Nat.le_trans; [apply strip_len|]. apply firstn_le_length.
Qed.
Lemma clip_clip : forall w s, strip (firstn w (clip w s)) = clip w s.
Proof. intros w s. apply trim_read. apply clip_trim. Qed.
Lemma plain_part : forall a s b, plain (a ++ s ++ b) -> plain s.
Proof.
  intros a s b [H1 H2]. unfold no_lb in H1. rewrite !forallb_app in H1. apply andb_prop in H1 as [_ H1]. apply andb_prop in H1 as [H1 _].
  apply Forall_app in H2 as [_ H2]. apply Forall_app in H2 as [H2 _]. split; assumption.
Qed.
Lemma text_part : forall a s b, text_ok (a ++ s ++ b) -> text_ok s.
Proof.
  intros a s b [H1 H2]. split; [eapply plain_part; exact H1|]. destruct (containsb TAG s) eqn:E; [|reflexivity].
  apply containsb_iff in E as (u & v & ->). rewrite <- H2. symmetry. apply containsb_iff. exists (a ++ u), (v ++ b). rewrite <- !app_assoc. reflexivity.
Qed.
Lemma text_clip : forall w s, text_ok s -> text_ok (clip w s).
Proof. intros w s H. destruct (clip_part w s) as (a & b & E). rewrite E in H. exact (text_part _ _ _ H). Qed.
Lemma text_strip : forall s, text_ok s -> text_ok (strip s).
Proof. intros s H. destruct (strip_part s) as (a & b & E). rewrite E in H. exact (text_part _ _ _ H). Qed.
Lemma text_rstrip : forall s, text_ok s -> text_ok (rstrip s).
Proof. intros s H. destruct (rstrip_part s) as (b & E). rewrite E in H. exact (text_part [] _ _ H). Qed.
Lemma plain_strip : forall s, plain s -> plain (strip s).
Proof. intros s H. destruct (strip_part s) as (a & b & E). rewrite E in H. exact (plain_part _ _ _ H). Qed.
Lemma short_strip : forall w s, short_text w s -> short_text w (strip s).
Proof. intros w s [H1 H2]. split; [apply text_strip; exact H1|]. pose proof (strip_len s). lia. Qed.
Lemma shortp_strip : forall w s, short_plain w s -> short_plain w (strip s).
Proof. intros w s [H1 H2]. split; [apply plain_strip; exact H1|]. pose proof (strip_len s). lia. Qed.
Lemma strip_twice : forall s, strip (strip s) = strip s.
Proof. intro s. apply strip_by_idem. Qed.
Lemma rstrip_twice : forall s, rstrip (rstrip s) = rstrip s.
Proof.
  intro s. unfold rstrip, rstrip_by. rewrite rev_involutive. f_equal. generalize (rev s) as l. induction l as [|c l IH]; [reflexivity|].
  cbn [dropwhile]. destruct (is_ws c) eqn:E; [exact IH|]. cbn [dropwhile]. rewrite E. reflexivity.
Qed.
Lemma strip_not_tag : forall s, strip s <> lit "  -1".
Proof. intros s E. assert (H := strip_twice s). rewrite E in H. discriminate. Qed.

(* ------------------------------------------------------------------ *)
(** ** A dictionary laid over another *)

Definition spares (e : dict) (ks : list string) : bool := forallb (fun k => match dget e (KS k) with None => true | _ => false end) ks.
Lemma spares_get : forall e ks d k, spares e ks = true -> In k ks -> dget (e ++ d) (KS k) = dget d (KS k).
Proof.
  intros e ks d k H Hk. unfold spares in H. rewrite forallb_forall in H. specialize (H k Hk). rewrite dget_app. destruct (dget e (KS k)); [discriminate|reflexivity].
Qed.
Lemma Forall2_in : forall A B (P Q : A -> B -> Prop) l k, (forall a b, In a l -> P a b -> Q a b) -> Forall2 P l k -> Forall2 Q l k.
Proof.
  intros A B P Q l k H F. induction F as [|a b l k Hp F IH]; constructor; [apply H; [left; reflexivity|exact Hp]|]. apply IH. intros x y Hx. apply H. right. exact Hx.
Qed.
Lemma keys_has : forall A (P : pyval -> A -> Prop) e d ks l, spares e ks = true ->
  Forall2 (fun k z => has P d k z) ks l -> Forall2 (fun k z => has P (e ++ d) k z) ks l.
Proof.
  intros A P e d ks l S. apply Forall2_in. intros k z Hk (v & G & V). exists v. split; [|exact V]. rewrite (spares_get e ks d k S Hk). exact G.
Qed.
Lemma keys_field : forall A (P : pyval -> A -> Prop) b e d ks l dflt, spares e ks = true ->
  Forall2 (fun k z => field P b d k z dflt) ks l -> Forall2 (fun k z => field P b (e ++ d) k z dflt) ks l.
Proof.
  intros A P b e d ks l dflt S. apply Forall2_in. intros k z Hk. assert (G := spares_get e ks d k S Hk).
  unfold field, has_or, has. rewrite G. exact (fun h => h).
Qed.
Ltac kept := lazymatch goal with
  | |- _ /\ _ => split; [kept|kept]
  | |- _ => first [match goal with X : _ |- _ => exact X end
      | left; eexists; split; [reflexivity|reflexivity] | eexists; split; [reflexivity|reflexivity] | idtac]
  end.
Ltac open R := lazymatch type of R with
  | _ /\ _ => let R1 := fresh R in let R2 := fresh R in destruct R as [R1 R2]; open R1; open R2
  | _ => idtac end.

(* ------------------------------------------------------------------ *)
(** ** Set by set: the content with its texts clipped *)

Definition settle82 (t : trace) : trace := {| t_num := t_num t; t_color := t_color t; t_id := clip 80 (t_id t); t_nodes := t_nodes t |}.
Lemma settles82 : forall d t, repr82 d t -> wf82 t -> exists e, repr82 e (settle82 t) /\ wf82 (settle82 t).
Proof.
  intros d t R W. exists ([(KS "id", VStr (clip 80 (t_id t)))] ++ d). split.
  - unfold repr82 in *. destruct R as (R1 & R2 & R3 & R4 & R5 & R6). kept.
  - destruct W as (W1 & W2 & W3 & W4 & W5 & W6 & W7). unfold wf82, settle82. cbn [t_num t_color t_id t_nodes]. do 3 (split; [assumption|]). split; [apply text_clip; exact W4|]. kept.
Qed.
Definition settle164 (u : units) : units := {| u_code := u_code u; u_desc := strip (u_desc u); u_mode := u_mode u; u_len := u_len u; u_force := u_force u; u_temp := u_temp u; u_off := u_off u |}.
Lemma settles164 : forall d u, repr164 d u -> wf164 u -> exists e, repr164 e (settle164 u) /\ wf164 (settle164 u).
Proof.
  intros d u R W. exists ([(KS "units_description", VStr (strip (u_desc u)))] ++ d). split.
  - unfold repr164 in *. open R. kept.
  - destruct W as (W1 & W2 & W3 & W4 & W5). unfold wf164, settle164. cbn [u_code u_desc u_mode u_len u_force u_temp u_off]. split; [assumption|]. split; [apply short_strip; exact W2|]. kept.
Qed.
Definition settle151 (h : head151) : head151 :=
  {| a_model := clip 80 (a_model h); a_desc := clip 80 (a_desc h); a_app := clip 80 (a_app h); a_prog := clip 80 (a_prog h);
     a_date1 := strip (a_date1 h); a_time1 := strip (a_time1 h); a_date2 := strip (a_date2 h); a_time2 := strip (a_time2 h);
     a_date3 := strip (a_date3 h); a_time3 := strip (a_time3 h); a_v1 := a_v1 h; a_v2 := a_v2 h; a_ft := a_ft h |}.
Lemma settles151 : forall c d h, repr151 c d h -> wf151 h -> exists e, repr151 c e (settle151 h) /\ wf151 (settle151 h).
Proof.
  intros c d h R W. exists ([(KS "model_name", VStr (clip 80 (a_model h))); (KS "description", VStr (clip 80 (a_desc h))); (KS "db_app", VStr (clip 80 (a_app h)));
    (KS "program", VStr (clip 80 (a_prog h))); (KS "date_db_created", VStr (strip (a_date1 h))); (KS "time_db_created", VStr (strip (a_time1 h)));
    (KS "date_db_saved", VStr (strip (a_date2 h))); (KS "time_db_saved", VStr (strip (a_time2 h)));
    (KS "date_file_written", VStr (strip (a_date3 h))); (KS "time_file_written", VStr (strip (a_time3 h)))] ++ d). split.
  - unfold repr151 in *. open R. kept.
  - destruct W as (W1 & W2 & W3 & W4). unfold wf151, settle151. cbn [a_model a_desc a_app a_prog a_date1 a_time1 a_date2 a_time2 a_date3 a_time3 a_v1 a_v2 a_ft]. split; [|split; [|split; [exact W3|exact W4]]].
    + open_list W1. repeat (apply Forall_cons; [apply text_clip; assumption|]). apply Forall_nil.
    + open_list W2. repeat (apply Forall_cons; [apply short_strip; assumption|]). apply Forall_nil.
Qed.
Definition settle1858 (q : qual) : qual :=
  {| RtHeads.q_rec := RtHeads.q_rec q; RtHeads.q_oct := RtHeads.q_oct q; RtHeads.q_run := RtHeads.q_run q; RtHeads.q_ints := RtHeads.q_ints q;
     RtHeads.q_z := RtHeads.q_z q; RtHeads.q_user := RtHeads.q_user q; RtHeads.q_resp := strip (RtHeads.q_resp q); RtHeads.q_ref := strip (RtHeads.q_ref q) |}.
Lemma settles1858 : forall d q, repr1858 d q -> wf1858 q -> exists e, repr1858 e (settle1858 q) /\ wf1858 (settle1858 q).
Proof.
  intros d q R W. exists ([(KS "response_direction", VStr (strip (RtHeads.q_resp q))); (KS "reference_direction", VStr (strip (RtHeads.q_ref q)))] ++ d). split.
  - destruct R as (R1 & R2 & R3 & R4 & R5 & R6 & R7 & R8 & R9 & R10). unfold repr1858. do 5 (split; [assumption|]).
    split; [apply keys_has; [reflexivity|exact R6]|]. split; [apply keys_has; [reflexivity|exact R7]|]. split; [apply keys_has; [reflexivity|exact R8]|]. kept.
  - destruct W as (W1 & W2 & W3 & W4 & W5 & W6 & W7 & W8 & W9). unfold wf1858, settle1858. cbn [RtHeads.q_rec RtHeads.q_oct RtHeads.q_run RtHeads.q_ints RtHeads.q_z RtHeads.q_user RtHeads.q_resp RtHeads.q_ref]. do 6 (split; [assumption|]).
    split; [apply shortp_strip; exact W7|]. split; [apply shortp_strip; exact W8|]. apply strip_not_tag.
Qed.
Definition settle2400 (h : mhead) : mhead :=
  {| k_uid := k_uid h; k_et := k_et h; k_es := k_es h; k_ver := k_ver h; k_name := clip 80 (k_name h); k_part := clip 80 (k_part h); k_mask := k_mask h;
     k_date := strip (k_date h); k_time := strip (k_time h); k_vid := k_vid h; k_iid := k_iid h; k_ppu := k_ppu h; k_opt := k_opt h |}.
Lemma settles2400 : forall d h, repr2400 d h -> wf2400 h -> exists e, repr2400 e (settle2400 h) /\ wf2400 (settle2400 h).
Proof.
  intros d h R W. exists ([(KS "entity_name", VStr (clip 80 (k_name h))); (KS "part_number", VStr (clip 80 (k_part h)));
    (KS "date", VStr (strip (k_date h))); (KS "time", VStr (strip (k_time h)))] ++ d). split.
  - unfold repr2400 in *. open R. kept.
  - unfold wf2400 in *. destruct W as (W1 & W2 & W3 & W4 & W5 & W6 & W7 & W8 & W9 & W10 & W11 & W12). unfold settle2400. cbn [k_uid k_et k_es k_ver k_name k_part k_mask k_date k_time k_vid k_iid k_ppu k_opt]. do 5 (split; [assumption|]).
    split; [apply text_clip; assumption|]. split; [apply text_clip; assumption|]. split; [assumption|]. split; [assumption|].
    split; [apply shortp_strip; assumption|]. split; [apply shortp_strip; assumption|]. exact W12.
Qed.
Definition settle55 (r : data55) : data55 :=
  {| v_ids := map (clip 80) (v_ids r); v_model := v_model r; v_ch := v_ch r; v_spec := v_spec r; v_modes := v_modes r; v_kind := v_kind r; v_rows := v_rows r |}.
Lemma settles55 : forall d r, repr55 d r -> wf55 r -> exists e, repr55 e (settle55 r) /\ wf55 (settle55 r).
Proof.
  intros d r R W. exists (combine (map KS id_keys) (map (fun s => VStr (clip 80 s)) (v_ids r)) ++ d). split.
  - destruct R as (R1 & R2 & R3 & R4 & R5 & R6 & R7 & R8 & R9 & R10). assert (L := Forall2_len _ _ _ _ _ R3). unfold repr55, settle55.
    cbn [v_ids v_model v_ch v_spec v_modes v_kind v_rows]. destruct (v_ids r) as [|s1 [|s2 [|s3 [|s4 [|s5 [|]]]]]]; try discriminate.
    split; [exact R1|]. split; [exact R2|]. split; [unfold id_keys; cbn [map]; repeat (apply Forall2_cons; [left; eexists; split; reflexivity|]); apply Forall2_nil|].
    do 4 (split; [assumption|]). split; [destruct (v_modes r); exact R8|]. split; [exact R9|]. destruct (v_kind r); exact R10.
  - destruct W as (W1 & W2). unfold wf55, settle55. cbn [v_ids v_model v_ch v_spec v_modes v_kind v_rows]. split; [|exact W2].
    rewrite Forall_map. eapply Forall_impl; [|exact W1]. intros s. apply text_clip.
Qed.
Definition settle2414 (a : ana) : ana :=
  {| n_label := n_label a; n_name := clip 80 (n_name a); n_loc := n_loc a; n_ids := map (clip 80) (n_ids a);
     n_model := n_model a; n_an := n_an a; n_dc := n_dc a; n_rt := n_rt a; n_dt := n_dt a; n_nv := n_nv a;
     n_r10 := n_r10 a; n_r11 := n_r11 a; n_r12 := n_r12 a; n_r13 := n_r13 a; n_body := n_body a |}.
Lemma settles2414 : forall d a, repr2414 d a -> wf2414 a -> exists e, repr2414 e (settle2414 a) /\ wf2414 (settle2414 a).
Proof.
  intros d a R W. exists (((KS "analysis_dataset_name", VStr (clip 80 (n_name a))) :: combine (map KS id_keys) (map (fun s => VStr (clip 80 s)) (n_ids a))) ++ d). split.
  - destruct R as (R1 & R2 & R3 & R4 & R5 & R6 & R7 & R8 & R9 & R10 & R11 & R12 & R13 & R14 & R15 & R16 & R17). assert (L := Forall2_len _ _ _ _ _ R6). unfold repr2414, settle2414.
    cbn [n_label n_name n_loc n_ids n_model n_an n_dc n_rt n_dt n_nv n_r10 n_r11 n_r12 n_r13 n_body].
    destruct (n_ids a) as [|s1 [|s2 [|s3 [|s4 [|s5 [|]]]]]]; try discriminate.
    split; [exact R1|]. split; [exact R2|]. split; [exact R3|]. split; [eexists; split; reflexivity|]. split; [exact R5|].
    split; [unfold id_keys; cbn [map]; repeat (apply Forall2_cons; [eexists; split; reflexivity|]); apply Forall2_nil|].
    do 6 (split; [assumption|]).
    split; [apply keys_field; [unfold k10; destruct (is_freq (n_body a)); reflexivity|exact R13]|].
    split; [apply keys_field; [unfold k11; destruct (is_freq (n_body a)); reflexivity|exact R14]|].
    split; [apply keys_field; [unfold k12; destruct (is_freq (n_body a)); reflexivity|exact R15]|].
    split; [apply keys_field; [unfold k13; destruct (is_freq (n_body a)); reflexivity|exact R16]|].
    destruct (n_body a); exact R17.
  - destruct W as (W1 & W2 & W3). unfold wf2414, settle2414. cbn [n_label n_name n_loc n_ids n_model n_an n_dc n_rt n_dt n_nv n_r10 n_r11 n_r12 n_r13 n_body].
    split; [apply text_clip; exact W1|]. split; [|exact W3]. rewrite Forall_map. eapply Forall_impl; [|exact W2]. intro s. apply text_clip.
Qed.
Definition settle_axis (a : axis) : axis :=
  {| x_spec := x_spec a; x_len := x_len a; x_force := x_force a; x_temp := x_temp a; x_lab := strip (x_lab a); x_units := strip (x_units a) |}.
Definition settle58 (r : func58) : func58 :=
  {| q_ids := map (clip 80) (q_ids r); q_type := q_type r; q_id := q_id r; q_ver := q_ver r; q_lc := q_lc r; q_rsp := strip (q_rsp r); q_rspn := q_rspn r; q_rspd := q_rspd r;
     q_ref := strip (q_ref r); q_refn := q_refn r; q_refd := q_refd r; q_cplx := q_cplx r; q_dbl := q_dbl r; q_even := q_even r;
     q_min := q_min r; q_inc := q_inc r; q_zval := q_zval r;
     q_abs := settle_axis (q_abs r); q_ord := settle_axis (q_ord r); q_den := settle_axis (q_den r); q_zax := settle_axis (q_zax r); q_pts := q_pts r |}.
Definition axis_texts (p : string) (a : axis) : dict := [(KS (p ++ "_axis_lab"), VStr (strip (x_lab a))); (KS (p ++ "_axis_units_lab"), VStr (strip (x_units a)))].
Lemma wf_settle_axis : forall a, wf_axis a -> wf_axis (settle_axis a).
Proof.
  intros a (W1 & W2 & W3 & W4 & W5 & W6 & W7 & W8). unfold wf_axis, settle_axis. cbn [x_spec x_len x_force x_temp x_lab x_units].
  do 4 (split; [assumption|]). split; [apply plain_strip; exact W5|]. split; [pose proof (strip_len (x_lab a)); lia|].
  split; [apply text_strip; exact W7|pose proof (strip_len (x_units a)); lia].
Qed.
Lemma settles58 : forall fd b d r, repr58 fd b d r -> wf58 r -> exists e, repr58 fd b e (settle58 r) /\ wf58 (settle58 r).
Proof.
  intros fd b d r R W. exists ((combine (map KS id_keys) (map (fun s => VStr (clip 80 s)) (q_ids r)) ++
    [(KS "rsp_ent_name", VStr (strip (q_rsp r))); (KS "ref_ent_name", VStr (strip (q_ref r)))] ++
    axis_texts "abscissa" (q_abs r) ++ axis_texts "ordinate" (q_ord r) ++ axis_texts "orddenom" (q_den r) ++ axis_texts "z_axis" (q_zax r)) ++ d). split.
  - assert (L := repr58_ids _ _ _ _ R). unfold repr58, repr_axis in *. unfold settle58.
    cbn [q_ids q_type q_id q_ver q_lc q_rsp q_rspn q_rspd q_ref q_refn q_refd q_cplx q_dbl q_even q_min q_inc q_zval q_abs q_ord q_den q_zax q_pts settle_axis x_spec x_len x_force x_temp x_lab x_units].
    change (odt58 _) with (odt58 r). destruct (q_ids r) as [|s1 [|s2 [|s3 [|s4 [|s5 [|]]]]]]; try discriminate. open R.
    split; [assumption|]. split; [unfold id_keys; cbn [map]; repeat (apply Forall2_cons; [left; eexists; split; reflexivity|]); apply Forall2_nil|].
    do 10 (split; [first [assumption|left; eexists; split; reflexivity]|]). split; [destruct fd; assumption|].
    do 7 (split; [assumption|]). kept.
  - unfold wf58 in *. destruct W as (W1 & W2 & W3 & W4 & W5 & W6 & W7 & W8 & W9 & W10 & W11 & W12 & W13 & W14 & W15 & W16 & W17 & W18 & W19 & W20 & W21 & W22).
    unfold settle58. cbn [q_ids q_type q_id q_ver q_lc q_rsp q_rspn q_rspd q_ref q_refn q_refd q_cplx q_dbl q_even q_min q_inc q_zval q_abs q_ord q_den q_zax q_pts].
    split; [rewrite Forall_map; eapply Forall_impl; [|exact W1]; intro s; apply text_clip|]. do 4 (split; [assumption|]).
    split; [apply plain_strip; exact W6|]. split; [pose proof (strip_len (q_rsp r)); lia|]. do 2 (split; [assumption|]).
    split; [apply plain_strip; exact W10|]. split; [pose proof (strip_len (q_ref r)); lia|]. do 6 (split; [assumption|]).
    do 4 (split; [apply wf_settle_axis; assumption|]). exact W22.
Qed.
Definition settle_cs (c : cs18) : cs18 :=
  {| c_num := c_num c; c_type := c_type c; c_ref := c_ref c; c_color := c_color c; c_method := c_method c; c_name := strip (c_name c);
     c_o := c_o c; c_x := c_x c; c_xz := c_xz c |}.
Lemma settles18 : forall d l, repr18 d l -> wf18 l -> exists e, repr18 e (map settle_cs l) /\ wf18 (map settle_cs l).
Proof.
  intros d l R W. exists ([(KS "cs_name", VList (map (fun c => VStr (strip (c_name c))) l))] ++ d). split.
  - unfold repr18 in *. rewrite !map_map, !map_length. destruct R as (R1 & R2 & R3 & R4 & R5 & R6 & R7 & R8 & R9 & R10 & R11).
    do 7 (split; [assumption|]). split; [left; eexists; split; [reflexivity|]; apply seq_list; reflexivity|]. kept.
  - unfold wf18 in *. rewrite Forall_map. eapply Forall_impl; [|exact W]. intros c (W1 & W2 & W3 & W4). unfold settle_cs.
    cbn [c_num c_type c_ref c_color c_method c_name c_o c_x c_xz]. split; [exact W1|]. split; [exact W2|]. split; [apply text_strip; exact W3|exact W4].
Qed.
Definition settle_sys (s : cs2420) : cs2420 := {| s_label := s_label s; s_type := s_type s; s_color := s_color s; s_name := rstrip (s_name s); s_mat := s_mat s |}.
Definition settle2420 (p : part) : part := {| p_uid := p_uid p; RtCs.p_name := rstrip (RtCs.p_name p); p_cs := map settle_sys (p_cs p) |}.
Lemma settles2420 : forall d p, repr2420 d p -> wf2420 p -> exists e, repr2420 e (settle2420 p) /\ wf2420 (settle2420 p).
Proof.
  intros d p R W. exists ([(KS "Part_Name", VStr (rstrip (RtCs.p_name p))); (KS "CS_names", VList (map (fun s => VStr (rstrip (s_name s))) (p_cs p)))] ++ d). split.
  - unfold repr2420, settle2420 in *. cbn [p_uid RtCs.p_name p_cs]. rewrite !map_map. destruct R as (R1 & R2 & R3 & R4 & R5 & R6 & R7 & R8 & R9).
    do 3 (split; [assumption|]). split; [left; eexists; split; reflexivity|]. do 3 (split; [assumption|]).
    split; [eexists; split; [reflexivity|]; apply seq_list; reflexivity|exact R9].
  - unfold wf2420, settle2420 in *. cbn [p_uid RtCs.p_name p_cs]. destruct W as (W1 & W2 & W3 & W4). split; [exact W1|]. split; [exact W2|].
    split; [apply text_rstrip; exact W3|]. rewrite Forall_map. eapply Forall_impl; [|exact W4]. intros s (V1 & V2 & V3 & V4 & V5 & V6).
    unfold settle_sys. cbn [s_label s_type s_color s_name s_mat]. do 4 (split; [assumption|]). split; [apply text_rstrip; exact V5|exact V6].
Qed.
Definition settle_group (g : group * list ent4) : group * list ent4 :=
  ({| p_num := p_num (fst g); p_sets := p_sets (fst g); p_name := clip 40 (p_name (fst g)) |}, snd g).
Lemma settles_group : forall v g, repr_group v g -> exists w, repr_group w (settle_group g).
Proof.
  intros v g (d & -> & R1 & R2 & R3 & R4). exists (VDict ([(KS "group_name", VStr (clip 40 (p_name (fst g))))] ++ d)). eexists. split; [reflexivity|].
  unfold settle_group. cbn [fst snd p_num p_sets p_name]. split; [exact R1|]. split; [apply keys_has; [reflexivity|exact R2]|]. split; [eexists; split; reflexivity|exact R4].
Qed.
Lemma settles2467 : forall d l, repr2467 d l -> wf2467 l -> exists e, repr2467 e (map settle_group l) /\ wf2467 (map settle_group l).
Proof.
  intros d l (R1 & R2 & v & R3 & vs & R4 & R5) W.
  assert (G : exists ws, Forall2 repr_group ws (map settle_group l)).
  { clear -R5. induction R5 as [|x g vs l H _ (ws & IH)]; [exists []; constructor|]. destruct (settles_group x g H) as (w & Hw). exists (w :: ws). constructor; assumption. }
  destruct G as (ws & G). exists ([(KS "groups", VList ws)] ++ d). split.
  - split; [exact R1|]. split; [exact R2|]. eexists. split; [reflexivity|]. exists ws. split; [reflexivity|exact G].
  - unfold wf2467 in *. rewrite Forall_map. eapply Forall_impl; [|exact W]. intros g ((W1 & W2 & W3 & W4) & W5). unfold settle_group, wf_group.
    cbn [fst snd p_num p_sets p_name]. split; [|exact W5]. do 3 (split; [assumption|]). apply text_clip. exact W4.
Qed.
Lemma with_regroup : forall k l, with_desc k (regroup l) = with_desc k l.
Proof.
  intros k l. unfold regroup. assert (G : forall ks, NoDup ks -> with_desc k (flat_map (fun j => with_desc j l) ks) = if existsb (Z.eqb k) ks then with_desc k l else []).
  { induction ks as [|j ks IH]; intro Hn; [reflexivity|]. inversion Hn as [|? ? Hj Hn']; subst. cbn [flat_map existsb]. rewrite with_app, IH by exact Hn'.
    destruct (with_all j (with_desc j l) _ (desc_with j l)) as [A1 A2]. destruct (Z.eqb_spec k j) as [->|E]; cbn [orb].
    - rewrite A1. replace (existsb (Z.eqb j) ks) with false; [apply app_nil_r|]. symmetry. apply Bool.not_true_iff_false. intro C.
      apply existsb_exists in C as (i & Hi & C). apply Z.eqb_eq in C. subst. contradiction.
    - rewrite (A2 k E). reflexivity. }
  rewrite G by apply firsts_nodup. destruct (existsb (Z.eqb k) (firsts (map e_desc l))) eqn:E; [reflexivity|]. symmetry. apply with_none. intro C.
  apply firsts_in in C. assert (X : existsb (Z.eqb k) (firsts (map e_desc l)) = true) by (apply existsb_exists; exists k; split; [exact C|apply Z.eqb_refl]). congruence.
Qed.
Lemma read_regroup : forall l, read2412 (regroup l) = read2412 l.
Proof.
  intro l. unfold read2412, groups2412, legacy2412. rewrite !with_regroup, desc_regroup, firsts_runs.
  - f_equal. f_equal. apply map_ext. intro k. rewrite with_regroup. reflexivity.
  - apply firsts_nodup.
  - intros k Hk. apply with_pos. apply firsts_in. exact Hk.
Qed.

(* ------------------------------------------------------------------ *)
(** ** All sets *)

Definition settled (x : content) : content :=
  match x with
  | X18 l => X18 (map settle_cs l) | X55 r => X55 (settle55 r) | X58 b r => X58 b (settle58 r) | X82 t => X82 (settle82 t) | X151 h => X151 (settle151 h)
  | X164 u => X164 (settle164 u) | X1858 q => X1858 (settle1858 q) | X2400 h => X2400 (settle2400 h) | X2412 l => X2412 (regroup l)
  | X2414 a => X2414 (settle2414 a) | X2420 p => X2420 (settle2420 p) | X2467 l => X2467 (map settle_group l)
  | X15 _ | X2411 _ | X2429 _ _ => x
  end.
Lemma settled_states : forall c m fd d x, states c m fd d x -> exists e, states c m fd e (settled x).
Proof.
  intros c m fd d x H. destruct x as [l|l|r|b r|t|h|u|q|h|l|l|a|p|g es|l]; cbn [states settled] in *.
  - exists d. exact H.
  - destruct H. eapply settles18; eassumption.
  - destruct H. eapply settles55; eassumption.
  - destruct b.
    + destruct H as (H1 & H2 & H3 & H4 & H5 & H6). destruct (settles58 _ _ _ _ H2 H3) as (e & E1 & E2). exists e. kept.
    + destruct H. eapply settles58; eassumption.
  - destruct H. eapply settles82; eassumption.
  - destruct H. eapply settles151; eassumption.
  - destruct H. eapply settles164; eassumption.
  - destruct H. eapply settles1858; eassumption.
  - destruct H. eapply settles2400; eassumption.
  - exists d. exact H.
  - exists (read2412 l). split; [apply again2412|apply wf_regroup; apply H].
  - destruct H. eapply settles2414; eassumption.
  - destruct H. eapply settles2420; eassumption.
  - exists d. exact H.
  - destruct H. eapply settles2467; eassumption.
Qed.
Lemma clips : forall w l, map (fun s => VStr (strip (firstn w s))) (map (clip w) l) = map (fun s => VStr (strip (firstn w s))) l.
Proof. intros w l. rewrite map_map. apply map_ext. intro s. rewrite clip_clip. reflexivity. Qed.
Lemma settled_reading : forall ho x, reading ho (settled x) = reading ho x.
Proof.
  intros ho x. destruct x as [l|l|r|b r|t|h|u|q|h|l|l|a|p|g es|l]; cbn [reading settled]; try reflexivity.
  - unfold read18. rewrite !map_map. rewrite (map_ext (fun c => VStr (strip (c_name (settle_cs c)))) (fun c => VStr (strip (c_name c)))); [reflexivity|]. intro c. cbn [settle_cs c_name]. rewrite strip_twice. reflexivity.
  - unfold read55, settle55. cbn [v_ids v_model v_ch v_spec v_modes v_kind v_rows]. rewrite clips. reflexivity.
  - unfold read58, base58, head_out, rec6_out, axis_out, settle58, settle_axis.
    cbn [q_ids q_type q_id q_ver q_lc q_rsp q_rspn q_rspd q_ref q_refn q_refd q_cplx q_dbl q_even q_min q_inc q_zval q_abs q_ord q_den q_zax q_pts x_spec x_len x_force x_temp x_lab x_units].
    rewrite clips, !strip_twice. reflexivity.
  - unfold read82, settle82. cbn [t_num t_color t_id t_nodes]. rewrite clip_clip. reflexivity.
  - unfold read151, settle151. cbn [a_model a_desc a_app a_prog a_date1 a_time1 a_date2 a_time2 a_date3 a_time3 a_v1 a_v2 a_ft]. rewrite !clip_clip, !strip_twice. reflexivity.
  - unfold read164, settle164. cbn [u_code u_desc u_mode u_len u_force u_temp u_off]. rewrite strip_twice. reflexivity.
  - unfold read1858, settle1858. cbn [RtHeads.q_rec RtHeads.q_oct RtHeads.q_run RtHeads.q_ints RtHeads.q_z RtHeads.q_user RtHeads.q_resp RtHeads.q_ref]. rewrite !strip_twice. reflexivity.
  - unfold read2400, settle2400. cbn [k_uid k_et k_es k_ver k_name k_part k_mask k_date k_time k_vid k_iid k_ppu k_opt]. rewrite !clip_clip, !strip_twice. reflexivity.
  - apply read_regroup.
  - unfold read2414, pre2414, settle2414, fields_out. cbn [n_label n_name n_loc n_ids n_model n_an n_dc n_rt n_dt n_nv n_r10 n_r11 n_r12 n_r13 n_body]. rewrite clip_clip, clips. reflexivity.
  - unfold read2420, settle2420. cbn [p_uid RtCs.p_name p_cs]. rewrite !map_map, rstrip_twice. rewrite (map_ext (fun s => VStr (rstrip (s_name (settle_sys s)))) (fun s => VStr (rstrip (s_name s)))); [reflexivity|].
    intro s. cbn [settle_sys s_name]. rewrite rstrip_twice. reflexivity.
  - unfold read2467. rewrite !map_map. rewrite (map_ext (fun g => VDict (out2467 (settle_group g))) (fun g => VDict (out2467 g))); [reflexivity|]. intro g. unfold out2467, group_out, settle_group. cbn [fst snd p_num p_sets p_name]. rewrite clip_clip. reflexivity.
Qed.
(** Rounding once more changes nothing. *)
Lemma again_map : forall p l, (1 <= p)%nat -> short p -> Forall (fun f => f_valid f = true) l -> map (rd p) (map (rd p) l) = map (rd p) l.
Proof.
  intros p l Hp Sp H. rewrite map_map. apply map_ext_in. intros f Hf. rewrite Forall_forall in H. apply rd_again; auto.
Qed.
Lemma again5 : forall l, Forall okf l -> map r6f (map (rd 5) l) = map r6f l.
Proof. intros l H. unfold r6f. apply (again_map 5); [lia|exact short5|exact H]. Qed.
Lemma okfin_okf : forall l, Forall okfin l -> Forall okf l.
Proof. intros l H. eapply Forall_impl; [|exact H]. intros f [V _]. exact V. Qed.
Lemma nth_okf : forall l i, Forall okf l -> f_valid (nth i l f_zero) = true.
Proof.
  intros l i H. destruct (nth_in_or_default i l f_zero) as [G|G]; [rewrite Forall_forall in H; exact (H _ G)|rewrite G; reflexivity].
Qed.
Lemma rd5_again : forall f, f_valid f = true -> rd 5 (rd 5 f) = rd 5 f.
Proof. intros f V. apply rd_again; [lia|exact short5|exact V]. Qed.
Lemma read_round15 : forall l, valid15 l -> read15 (map (round_node (rd 5)) l) = read15 l.
Proof.
  intros l V. unfold read15, read_nodes. rewrite !map_map. cbn [round_node n_num n_def n_disp n_color n_x n_y n_z].
  assert (E : forall g : node -> float, (forall n, In n l -> f_valid (g n) = true) -> map (fun n => rd 5 (rd 5 (g n))) l = map (fun n => rd 5 (g n)) l).
  { intros g Hg. apply map_ext_in. intros n Hn. apply rd5_again. auto. }
  unfold valid15 in V. rewrite Forall_forall in V. rewrite (E n_x), (E n_y), (E n_z) by (intros n Hn; apply (V n Hn)). reflexivity.
Qed.
Lemma read_round18 : forall l, wf18 l -> read18 (map round_cs l) = read18 l.
Proof.
  intros l W. unfold read18, rd_pts. rewrite !map_map. unfold wf18 in W. rewrite Forall_forall in W.
  assert (E : forall g : cs18 -> point, (forall c, In c l -> ptv (g c)) ->
    map (fun c => map (fun f => VFloat (rd 5 f)) (pt_list (round_pt (g c)))) l = map (fun c => map (fun f => VFloat (rd 5 f)) (pt_list (g c))) l).
  { intros g Hg. apply map_ext_in. intros c Hc. rewrite round_pt_list, map_map. apply map_ext_in. intros f Hf. rewrite rd5_again; [reflexivity|].
    specialize (Hg c Hc). unfold ptv in Hg. rewrite Forall_forall in Hg. auto. }
  cbn [round_cs c_num c_type c_ref c_color c_method c_name c_o c_x c_xz]. rewrite (E c_o), (E c_x), (E c_xz) by (intros c Hc; apply (W c Hc)). reflexivity.
Qed.
Lemma read_round1858 : forall q, wf1858 q -> read1858 (round_qual q) = read1858 q.
Proof.
  intros q (_ & _ & _ & _ & V1 & V2 & _). unfold read1858. cbn [round_qual RtHeads.q_rec RtHeads.q_oct RtHeads.q_run RtHeads.q_ints RtHeads.q_z RtHeads.q_user RtHeads.q_resp RtHeads.q_ref].
  assert (E : forall (ks : list string) l, Forall (fun f => f_valid f = true) l ->
    map (fun kf => (KS (fst kf), VFloat (rd 7 (snd kf)))) (combine ks (map (rd 7) l)) = map (fun kf => (KS (fst kf), VFloat (rd 7 (snd kf)))) (combine ks l)).
  { induction ks as [|k ks IH]; intros l V; [reflexivity|]. destruct V as [|f l Vf V]; [reflexivity|]. cbn [map combine fst snd].
    rewrite IH by exact V. rewrite rd_again; [reflexivity|lia|exact short7|exact Vf]. }
  rewrite !E by assumption. reflexivity.
Qed.
Lemma real_round : forall i rows, Forall (fun w => Forall okf (snd w)) rows -> real_out i (map round_row rows) = real_out i rows.
Proof.
  intros i rows H. unfold real_out, colf. f_equal. rewrite !map_map. apply map_ext_in. intros w Hw. rewrite Forall_forall in H.
  unfold round_row, r6f. cbn [snd]. rewrite nth_rd. apply rd5_again. apply nth_okf. auto.
Qed.
Lemma r6c_round : forall a b, f_valid a = true -> f_valid b = true -> r6c (rd 5 a, rd 5 b) = r6c (a, b).
Proof. intros a b Ha Hb. unfold r6c, r6f. cbn [fst snd]. rewrite !rd5_again by assumption. reflexivity. Qed.
Lemma cplx_round : forall i rows, Forall (fun w => Forall okf (snd w)) rows -> cplx_out i (map round_row rows) = cplx_out i rows.
Proof.
  intros i rows H. unfold cplx_out, colc. f_equal. rewrite !map_map. apply map_ext_in. intros w Hw. rewrite Forall_forall in H.
  unfold round_row. cbn [snd]. rewrite !nth_rd. apply r6c_round; apply nth_okf; auto.
Qed.
Lemma fst_round : forall rows, map fst (map round_row rows) = map fst rows.
Proof. intro rows. rewrite map_map. reflexivity. Qed.
Lemma read_round55 : forall r, wf55 r -> read55 (round55 r) = read55 r.
Proof.
  intros r (_ & _ & W3 & W4). unfold read55. cbn [round55 v_ids v_model v_ch v_spec v_modes v_kind v_rows]. rewrite analysis_round, fst_round.
  assert (Em : out_modes (round_modes (v_modes r)) = out_modes (v_modes r)).
  { destruct (v_modes r) as [lc n f mm vi hi|lc n f|s lc n [e1 e2] [a1 a2] [b1 b2]]; cbn [wf_modes round_modes out_modes rd2 fst snd] in *; unfold r6f.
    - destruct W3 as (_ & _ & _ & D). open_list D. rewrite !rd5_again by assumption. reflexivity.
    - destruct W3 as (_ & _ & _ & D). rewrite rd5_again by exact D. reflexivity.
    - destruct W3 as (_ & _ & _ & D). apply okfin_okf in D. open_list D. unfold rd2. cbn [fst snd]. rewrite !r6c_round by assumption. reflexivity. }
  assert (Ok : Forall (fun w => Forall okf (snd w)) (v_rows r)).
  { eapply Forall_impl; [|exact W4]. intros w (_ & _ & _ & D). destruct (v_kind r); [exact D|exact D|apply okfin_okf; exact D]. }
  rewrite Em. assert (Eo : out_rows (v_kind r) (map round_row (v_rows r)) = out_rows (v_kind r) (v_rows r)).
  { destruct (v_kind r); unfold out_rows; rewrite ?real_round, ?cplx_round by exact Ok; reflexivity. }
  rewrite Eo. reflexivity.
Qed.
Lemma w12_okf : forall l, Forall w12 l -> Forall okf l.
Proof. intros l H. eapply Forall_impl; [|exact H]. intros f [V _]. exact V. Qed.
Lemma w11_okf : forall l, Forall w11 l -> Forall okf l.
Proof. intros l H. eapply Forall_impl; [|exact H]. intros f [V _]. exact V. Qed.
Lemma frow_round : forall l, Forall okf l -> frow (map (rd 5) l) = frow l.
Proof. intros l H. unfold frow. rewrite again5 by exact H. reflexivity. Qed.
Lemma frows_round : forall rows, Forall (fun w => Forall okf (snd w)) rows -> map (fun w : Z * list float => frow (snd w)) (map round_row rows) = map (fun w => frow (snd w)) rows.
Proof. intros rows H. rewrite map_map. apply map_ext_in. intros w Hw. rewrite Forall_forall in H. cbn [round_row snd]. apply frow_round. auto. Qed.
Lemma fields_round : forall (ks : list string) l, Forall okf l -> fields_out ks (fun f => VFloat (r6f f)) (map (rd 5) l) = fields_out ks (fun f => VFloat (r6f f)) l.
Proof.
  intros ks l H. unfold fields_out. f_equal. rewrite map_map. apply map_ext_in. intros f Hf. rewrite Forall_forall in H. unfold r6f. rewrite rd5_again by exact (H f Hf). reflexivity.
Qed.
Lemma body_round : forall nv dt b, wf_body nv b -> out_body nv dt (round_body b) = out_body nv dt b.
Proof.
  intros nv dt b W. destruct b as [rows|rows|rows|els|]; cbn [wf_body round_body out_body] in *; try reflexivity.
  - destruct W as [_ W]. assert (Ok : Forall (fun w => Forall okf (snd w)) rows).
    { eapply Forall_impl; [|exact W]. intros w (_ & _ & _ & D). eapply Forall_impl; [|exact D]. intros f ((V & _) & _). exact V. }
    rewrite fst_round, !cplx_round by exact Ok. reflexivity.
  - destruct W as [_ W]. rewrite fst_round, frows_round; [reflexivity|]. eapply Forall_impl; [|exact W]. intros w (_ & _ & D). apply w12_okf. exact D.
  - destruct W as [_ W]. rewrite fst_round, frows_round; [|eapply Forall_impl; [|exact W]; intros w (_ & _ & D); apply w12_okf; exact D].
    rewrite map_map. rewrite (map_ext (fun w => Z.of_nat (length (snd (round_row w)))) (fun w => Z.of_nat (length (snd w)))); [reflexivity|].
    intro w. cbn [round_row snd]. rewrite map_length. reflexivity.
  - rewrite !map_map. cbn [round_on o_num o_exp o_nodes o_per o_rows].
    assert (E : map (fun el => VList (map frow (map (map (rd 5)) (o_rows el)))) els = map (fun el => VList (map frow (o_rows el))) els).
    { apply map_ext_in. intros el Hel. rewrite Forall_forall in W. destruct (W el Hel) as (_ & _ & _ & _ & D). f_equal. rewrite map_map. apply map_ext_in.
      intros l Hl. rewrite Forall_forall in D. apply frow_round. apply w12_okf. auto. }
    rewrite E. reflexivity.
Qed.
Lemma read_round2414 : forall a, wf2414 a -> read2414 (round2414 a) = read2414 a.
Proof.
  intros a W. assert (W' := W). destruct W' as (_ & _ & _ & _ & _ & _ & _ & _ & V1 & V2 & _ & V3).
  unfold read2414, recs_out, pre2414, k10, k11, k12, k13. cbn [round2414 n_label n_name n_loc n_ids n_model n_an n_dc n_rt n_dt n_nv n_r10 n_r11 n_r12 n_r13 n_body].
  rewrite is_freq_round, body_round by exact V3. rewrite !fields_round by (apply w11_okf; assumption). reflexivity.
Qed.
Lemma xs_round : forall (bin : bool) r, wf58 r -> q_even r = false -> map fst (map (if bin then npt else rpt (q_dbl r)) (q_pts (round58 bin r))) = map fst (map (if bin then npt else rpt (q_dbl r)) (q_pts r)).
Proof.
  intros bin r W Ee. assert (Hp := wf58_pts r W). rewrite Forall_forall in Hp. cbn [round58 q_pts]. rewrite !map_map.
  transitivity (map (if bin then fun f => f else rd 5) (map fst (combine (xs_read bin r) (ys_read bin r)))); [rewrite map_map; destruct bin; reflexivity|].
  rewrite combine_fst by (rewrite xs_len, ys_len; reflexivity). unfold xs_read. rewrite Ee, !map_map. apply map_ext_in. intros p Hin.
  destruct bin; [reflexivity|]. cbn [rpt fst]. apply rd5_again. apply (Hp p Hin).
Qed.
Lemma ys_round : forall (bin : bool) r, wf58 r -> map snd (map (if bin then npt else rpt (q_dbl r)) (q_pts (round58 bin r))) = map snd (map (if bin then npt else rpt (q_dbl r)) (q_pts r)).
Proof.
  intros bin r W. assert (Hp := wf58_pts r W). rewrite Forall_forall in Hp. cbn [round58 q_pts].
  set (h := fun y : float * float => if bin then (nan_to_num1 (fst y), nan_to_num1 (snd y)) else
     (rd (if q_dbl r then 11 else 5) (nan_to_num1 (fst y)), rd (if q_dbl r then 11 else 5) (nan_to_num1 (snd y)))).
  assert (E : forall l : list pt, map snd (map (if bin then npt else rpt (q_dbl r)) l) = map h (map snd l)).
  { intro l. rewrite !map_map. apply map_ext. intros [x [u v]]. unfold h. destruct bin; reflexivity. }
  rewrite E, combine_snd by (rewrite xs_len, ys_len; reflexivity). unfold ys_read. rewrite E, !map_map. apply map_ext_in. intros p Hin.
  destruct (Hp p Hin) as (_ & V1 & V2). apply ntn_ok in V1 as [V1 F1]. apply ntn_ok in V2 as [V2 F2]. unfold h. destruct bin; cbn [fst snd].
  - rewrite (ntn_fin (nan_to_num1 (fst (snd p)))), (ntn_fin (nan_to_num1 (snd (snd p)))) by assumption. reflexivity.
  - rewrite !(ntn_fin (rd _ _)) by (apply rd_finite; [apply y_short|assumption|assumption]).
    rewrite !rd_again; try assumption; try apply y_short; try (destruct (q_dbl r); lia). reflexivity.
Qed.
Lemma read_round58 : forall (bin ho : bool) r, wf58 r -> loose58 bin r -> read58 bin ho (round58 bin r) = read58 bin ho r.
Proof.
  intros bin ho r W (_ & _ & _ & _ & _ & _ & _ & T & _). destruct T as (_ & x0 & x1 & rest & E & _ & _ & E0 & E1).
  assert (L : length (q_pts (round58 bin r)) = length (q_pts r)) by (cbn [round58 q_pts]; rewrite combine_length, xs_len, ys_len, Nat.min_id; reflexivity).
  assert (B : base58 bin (round58 bin r) = base58 bin r).
  { unfold base58, head_out, n_bytes58, rec6_out, odt58. rewrite L.
    cbn [round58 q_ids q_type q_id q_ver q_lc q_rsp q_rspn q_rspd q_ref q_refn q_refd q_cplx q_dbl q_even q_min q_inc q_zval q_abs q_ord q_den q_zax].
    rewrite E. cbn [nth]. rewrite E0, E1, rd5_again; [reflexivity|]. apply W. }
  unfold read58. rewrite B. f_equal. destruct ho; [reflexivity|].
  change (q_even (round58 bin r)) with (q_even r). change (q_dbl (round58 bin r)) with (q_dbl r). change (q_cplx (round58 bin r)) with (q_cplx r).
  assert (M : rd 5 (q_min (round58 bin r)) = rd 5 (q_min r)) by (cbn [round58 q_min]; rewrite E; exact E0).
  assert (I : rd 5 (q_inc (round58 bin r)) = rd 5 (q_inc r)) by (cbn [round58 q_inc]; rewrite E; exact E1). rewrite M, I.
  assert (Y := ys_round bin r W). assert (X := xs_round bin r W).
  assert (Ex : x_out (q_even r) (rd 5 (q_min r)) (rd 5 (q_inc r)) (map (if bin then npt else rpt (q_dbl r)) (q_pts (round58 bin r))) =
     x_out (q_even r) (rd 5 (q_min r)) (rd 5 (q_inc r)) (map (if bin then npt else rpt (q_dbl r)) (q_pts r))).
  { assert (Lm : length (map (if bin then npt else rpt (q_dbl r)) (q_pts (round58 bin r))) = length (map (if bin then npt else rpt (q_dbl r)) (q_pts r))) by (rewrite !map_length; exact L).
    unfold x_out. destruct (q_even r); [exact (f_equal (fun k => arange_x k _ _) Lm)|exact (f_equal vfloats (X eq_refl))]. }
  assert (Ey : forall l : list pt, y_out (q_cplx r) l = if q_cplx r then VArr DCplx (map (fun y => VCplx (re_part (fst y) (snd y)) (im_part (snd y))) (map snd l)) else vfloats (map fst (map snd l))).
  { intro l. unfold y_out. rewrite !map_map. reflexivity. }
  rewrite Ex, !Ey, Y. reflexivity.
Qed.
(** What is written for a dictionary, if it is so at all times, is one block. *)
Lemma text_any : forall (c : clock) e ty l0 ls (out : bool -> dict), (forall c m fd ho, text_set c m fd ho e ty l0 ls (out ho)) ->
  exists b, framed b /\ (forall ho, reads b ho (out ho)) /\ forall c m fd, stored c m fd e b.
Proof.
  intros c e ty l0 ls out H. destruct (text_set_block _ _ _ _ _ _ _ _ _ (H c Add false false)) as (b & (F & _) & _ & _ & O & C & E).
  assert (U : forall b', b_open b' = TLINE -> b_close b' = TLINE -> utf8_enc (unlines (l0 :: ls)) = Some (b_body b') -> b' = b).
  { intros b' O' C' E'. destruct b as [o y k], b' as [o' y' k']. cbn [b_open b_close b_body] in *. rewrite E in E'. injection E' as ->. congruence. }
  exists b. split; [exact F|]. split.
  - intro ho. destruct (text_set_block _ _ _ _ _ _ _ _ _ (H c Add false ho)) as (b' & _ & R & _ & O' & C' & E'). rewrite <- (U b' O' C' E'). exact R.
  - intros c' m' fd'. destruct (text_set_block _ _ _ _ _ _ _ _ _ (H c' m' fd' false)) as (b' & S & _ & _ & O' & C' & E'). rewrite <- (U b' O' C' E'). exact S.
Qed.
Definition steady (c : clock) (x : content) : Prop :=
  exists b, framed b /\ (forall ho, reads b ho (reading ho x)) /\ forall c' m' fd', copies m' fd' x -> stored c' m' fd' (reading false x) b.
Lemma text_steady : forall (c : clock) x ty l0 ls, (forall c m fd ho, text_set c m fd ho (reading false x) ty l0 ls (reading ho x)) -> steady c x.
Proof.
  intros c x ty l0 ls H. destruct (text_any c (reading false x) ty l0 ls (fun ho => reading ho x) H) as (b & F & R & S). exists b. split; [exact F|]. split; [exact R|].
  intros c' m' fd' _. apply S.
Qed.
Lemma tidy_steady : forall c m fd d x, states c m fd d x -> tidy x -> steady c x.
Proof.
  intros c m fd d x H T. destruct (states_again _ _ _ _ _ H) as (b & _ & F & R & S). exists b. split; [exact F|]. split; [exact R|exact (S T)].
Qed.
Lemma steady58 : forall c m fd d (bin : bool) r, states c m fd d (X58 bin r) -> loose58 bin r -> steady c (X58 bin r).
Proof.
  intros c m fd d bin r H T. set (e := read58 bin false r). set (r' := round58 bin r).
  assert (W : wf58 r) by (destruct bin; apply H). assert (Hi : length (q_ids r) = 5) by (destruct bin; [destruct H as (_ & R & _)|destruct H as (R & _)]; exact (repr58_ids _ _ _ _ R)).
  assert (W' := wf_round58 bin r W T). fold r' in W'. assert (Er : forall ho, reading ho (X58 bin r') = reading ho (X58 bin r)) by (intro ho; apply read_round58; assumption).
  assert (S' : forall c' m' fd', copies m' fd' (X58 bin r) -> states c' m' fd' e (X58 bin r')).
  { intros c' m' fd' [C1 C2]. assert (R' := again58 fd' bin r Hi C2 W T). fold r' e in R'. destruct bin; cbn [states].
    - destruct H as (_ & _ & _ & D & Nb & P). split; [apply C1; reflexivity|]. split; [exact R'|]. split; [exact W'|]. split; [exact D|]. split.
      + unfold n_bytes58, r'. cbn [round58 q_pts q_dbl]. rewrite combine_length, xs_len, ys_len, Nat.min_id. exact Nb.
      + unfold r'. rewrite payload_round by exact W. exact P.
    - split; [exact R'|exact W']. }
  assert (C0 : copies Add false (X58 bin r)) by (split; [reflexivity|discriminate]).
  destruct (states_block c Add false e _ (S' c Add false C0)) as (b & Sb & _ & Rb). exists b. split; [apply Sb|]. split; [intro ho; rewrite <- Er; apply Rb|].
  intros c' m' fd' C. assert (H0 := S' c Add false C0). assert (H1 := S' c' m' fd' C). split; [apply Sb|]. intro start. change (reading false (X58 bin r)) with e.
  destruct Sb as [_ Sb]. rewrite <- Sb. destruct bin; cbn [states] in H0, H1.
  - destruct H0 as (_ & R0 & _ & _ & Nb & _). destruct H1 as (-> & R1 & _). destruct (bytes58b c false e r' R0 W' Nb) as (h0 & E0 & B0). destruct (bytes58b c' fd' e r' R1 W' Nb) as (h1 & E1 & B1).
    rewrite E0 in E1. injection E1 as <-. exact (eq_trans (B1 start) (eq_sym (B0 start))).
  - destruct H0 as [R0 _], H1 as [R1 _]. destruct (text_set_again _ _ _ _ _ _ _ _ _ _ _ _ _ _ _ _ (set58 c Add false false e r' R0 W') (set58 c' m' fd' false e r' R1 W')) as (new & En).
    destruct (En start) as [A B]. exact (eq_trans B (eq_sym A)).
Qed.
Lemma settled_steady : forall c m fd d x, states c m fd d (settled x) -> calm x -> steady c (settled x).
Proof.
  intros c m fd d x H T. destruct x as [l|l|r|b r|t|h|u|q|h|l|l|a|p|g es|l]; cbn [calm] in T; try contradiction.
  - destruct H as [R W]. refine (text_steady c _ _ _ _ (fun c' m' fd' ho => _)). cbn [settled reading]. rewrite <- (read_round15 l T) at 2.
    apply set15; [apply again15|apply wf_round15; assumption].
  - destruct H as [R W]. refine (text_steady c _ _ _ _ (fun c' m' fd' ho => _)). cbn [settled reading]. rewrite <- (read_round18 _ W) at 2.
    apply set18; [apply again18; [exact W|]|apply wf_round18; exact W]. rewrite Forall_map, Forall_forall. intros cs _. apply strip_twice.
  - destruct H as [R W]. refine (text_steady c _ _ _ _ (fun c' m' fd' ho => _)). cbn [settled reading]. rewrite <- (read_round55 _ W) at 2.
    apply set55; [apply again55; [|exact W|]|apply wf_round55; exact W].
    + destruct R as (_ & _ & R & _). apply Forall2_len in R. symmetry. exact R.
    + split; [|exact T]. cbn [settle55 v_ids]. rewrite Forall_map, Forall_forall. intros s _. apply clip_trim.
  - eapply steady58; [exact H|]. split; [cbn [settle58 q_ids]; rewrite Forall_map, Forall_forall; intros s _; apply clip_trim|].
    do 2 (split; [apply strip_twice|]). do 4 (split; [split; apply strip_twice|]). exact T.
  - eapply tidy_steady; [exact H|]. split; [apply clip_trim|exact T].
  - eapply tidy_steady; [exact H|]. split; cbn [settle151 a_model a_desc a_app a_prog a_date1 a_time1 a_date2 a_time2 a_date3 a_time3].
    + repeat (apply Forall_cons; [apply clip_trim|]). apply Forall_nil.
    + repeat (apply Forall_cons; [apply strip_twice|]). apply Forall_nil.
  - eapply tidy_steady; [exact H|]. apply strip_twice.
  - destruct H as [R W]. refine (text_steady c _ _ _ _ (fun c' m' fd' ho => _)). cbn [settled reading]. rewrite <- (read_round1858 _ W) at 2.
    apply set1858; [eapply again1858; [exact R|apply strip_twice|apply strip_twice]|apply wf_round1858; exact W].
  - eapply tidy_steady; [exact H|]. split; [apply clip_trim|]. split; [apply clip_trim|]. split; apply strip_twice.
  - eapply tidy_steady; [exact H|]. exact T.
  - eapply tidy_steady; [exact H|]. apply regroup_again.
  - destruct H as [R W]. refine (text_steady c _ _ _ _ (fun c' m' fd' ho => _)). cbn [settled reading]. rewrite <- (read_round2414 _ W) at 2.
    apply set2414; [apply again2414; [exact (repr_lens _ _ R)|exact W|]|apply wf_round2414; exact W].
    split; [apply clip_trim|]. split; [cbn [settle2414 n_ids]; rewrite Forall_map, Forall_forall; intros s _; apply clip_trim|exact T].
  - eapply tidy_steady; [exact H|]. split; [apply rstrip_twice|]. cbn [settle2420 p_cs]. rewrite Forall_map, Forall_forall. intros s _. apply rstrip_twice.
  - eapply tidy_steady; [exact H|]. unfold tidy, tidy2467. cbn [settled]. rewrite Forall_map, Forall_forall. intros g _. apply clip_trim.
Qed.
Lemma settled_copies : forall m fd x, copies m fd x -> copies m fd (settled x).
Proof. intros m fd [] H; exact H. Qed.

(** One set: the dictionary that was read is written, at any time, as one block,
    and that block is read as the dictionary. *)
Theorem C82_set : forall c m fd d x, states c m fd d x -> calm x ->
  exists b, framed b /\ (forall ho, reads b ho (reading ho x)) /\ forall c' m' fd', copies m' fd' x -> stored c' m' fd' (reading false x) b.
Proof.
  intros c m fd d x H T. destruct (settled_states _ _ _ _ _ H) as (e & He). destruct (settled_steady c m fd e x He T) as (b & F & R & S).
  exists b. split; [exact F|]. split.
  - intro ho. rewrite <- (settled_reading ho x). apply R.
  - intros c' m' fd' C. rewrite <- (settled_reading false x). apply S. apply settled_copies. exact C.
Qed.
Print Assumptions C82_set.

(* ------------------------------------------------------------------ *)
(** ** Whole files *)

Definition kept (b : block) (x : content) : Prop :=
  framed b /\ reads b false (reading false x) /\ forall c m fd, copies m fd x -> stored c m fd (reading false x) b.
Definition stated (x : content) : Prop := exists c m fd d, states c m fd d x.
Lemma replay_stated : forall h cs, Forall2 call_states h cs -> forall xs, Forall stated xs -> Forall stated (fold_left step cs xs).
Proof.
  intros h cs H. induction H as [|call ys h cs Hc _ IH]; intros xs Hx; [exact Hx|]. cbn [fold_left]. apply IH.
  destruct Hc as [c m fd d x ds zs Hd Hs]. assert (F : Forall stated (x :: zs)).
  { constructor; [exists c, m, fd, d; exact Hd|]. clear -Hs. induction Hs as [|e y ds zs H _ IH]; constructor; [exists c, Add, fd, e; exact H|exact IH]. }
  unfold step. cbn [fst snd]. destruct m; [exact F|]. apply Forall_app. split; assumption.
Qed.
Lemma blocks_kept : forall xs, Forall stated xs -> Forall calm xs -> exists bs, Forall2 kept bs xs.
Proof.
  intros xs H. induction H as [|x xs (c & m & fd & d & Hx) _ IH]; intro T; [exists []; constructor|]. inversion T as [|? ? T1 T2]; subst.
  destruct (IH T2) as (bs & Hb). destruct (C82_set c m fd d x Hx T1) as (b & F & R & S). exists (b :: bs). constructor; [|exact Hb]. split; [exact F|]. split; [apply R|exact S].
Qed.
(** A whole file, whatever calls produced it: all its sets, read and written to a
    new file, give one file; that file is read as the same sets, so that every
    further copy of it is the file itself. *)
Theorem C82_file : forall h cs u0, Forall2 call_states h cs -> h <> [] -> Forall calm (replay cs) ->
  exists file u sets copy, run_hist h None u0 = (Some file, u, None) /\ read_sets (Some file) u SelAll false = Ok (u, shape_result sets) /\
    (forall c m fd u1, copies_all m fd (replay cs) -> exists u2, write_sets c None u1 sets (mode_name m) fd = (Some copy, u2, None) /\
       read_sets (Some copy) u2 SelAll false = Ok (u2, shape_result sets)).
Proof.
  intros h cs u0 H Hne T. destruct (hist_again h cs H [] [] u0 (Forall2_nil _) (or_introl eq_refl)) as (bs & Hb & [[E _]|[Hn Hr]]); [congruence|].
  change (fold_left step cs []) with (replay cs) in Hb. assert (St := replay_stated h cs H [] (Forall_nil _)). change (fold_left step cs []) with (replay cs) in St.
  destruct (blocks_kept _ St T) as (ks & Hk). set (sets := map (reading false) (replay cs)).
  exists (file_of bs), (view (file_of bs)), sets, (file_of ks). split; [exact Hr|]. assert (Hf := again_framed _ _ Hb).
  assert (Hrd : Forall2 (fun b o => reads b false o) bs sets).
  { clear -Hb. unfold sets. induction Hb as [|b x bs xs (_ & Hx & _) _ IH]; constructor; auto. }
  destruct (read_blocks bs false _ Hf Hrd) as (Ha & _). split; [exact Ha|]. intros c m fd u1 C.
  assert (Kf : Forall framed ks) by (clear -Hk; induction Hk as [|b x bs xs (F & _) _ IH]; constructor; assumption).
  assert (Kr : Forall2 (fun b o => reads b false o) ks sets).
  { clear -Hk. unfold sets. induction Hk as [|b x bs xs (_ & Hx & _) _ IH]; constructor; auto. }
  assert (L : stored_list c m fd sets ks).
  { unfold sets. assert (Hx : replay cs <> []) by (intro E; rewrite E in Hb; inversion Hb; subst; congruence). clear -Hk C Hx. revert C Hx.
    destruct Hk as [|b x ks xs K Hk]; intros C Hx; [congruence|]. destruct C as [C1 C2].
    split; [discriminate|]. cbn [map]. split; [apply K; exact C1|]. clear K C1 Hx. induction Hk as [|b' x' ks xs K Hk IH]; [constructor|].
    inversion C2; subst. constructor; [apply K; assumption|apply IH; assumption]. }
  destruct (write_sets_stored c m fd _ ks [] u1 L (Forall_nil _)) as (Hw & _ & _). cbn [replay1 app] in Hw. exists (view (file_of ks)).
  split; [destruct m; exact Hw|]. destruct (read_blocks ks false _ Kf Kr) as (Kb & _). exact Kb.
Qed.
Print Assumptions C82_file.
(** A history of all types but 2429, in both forms of 58, with texts that reading
    clips and elements that it reorders. *)
Definition h_worn : hist :=
  [(noclock, Add, true, [d164; d15; d2414_freq]);
   (noclock, Overwrite, false, [d151; d164; d58_even; d2400]);
   (noclock, Add, true, [d58_bin; d15; d18; d55_normal; d58_uneven; d82]);
   (noclock, Add, true, [d1858; d2411; d2412; d2414_on; d2420; d2467; d2414_nodes])].
Definition x_worn : list (wmode * list content) :=
  [(Add, [X164 u164; X15 r15; X2414 a2414_freq]);
   (Overwrite, [X151 h151; X164 u164; X58 false r58_even; X2400 h2400]);
   (Add, [X58 true r58_uneven; X15 r15; X18 r18; X55 r55_normal; X58 false r58_uneven; X82 t82]);
   (Add, [X1858 q1858; X2411 r2411; X2412 l2412; X2414 a2414_on; X2420 p2420; X2467 l2467; X2414 a2414_nodes])].
Example C82_example : Forall2 call_states h_worn x_worn /\ Forall calm (replay x_worn) /\ copies_all Overwrite false (replay x_worn) /\
  ~ tidy (X151 h151) /\ ~ tidy (X18 r18) /\ ~ tidy (X2412 l2412).
Proof.
  split; [|split; [tidy1|split; [|split; [|split]]]].
  - assert (B := C28_example).
    repeat first [apply Forall2_cons | apply Forall2_nil | apply call_of]; cbn [states];
    first [exact C38_example | exact C23_example | exact C45_example_freq | exact C36_example | exact C27_example_even | exact C41_example
          | exact C24_example | exact C25_example_normal | exact C27_example_uneven | exact C34_example
          | exact C39_example | exact C42_example | exact C43_example | exact C45_example_on | exact C48_example | exact C51_example
          | exact C45_example_nodes | (split; [reflexivity|exact B])].
  - change (replay x_worn) with
      [X151 h151; X164 u164; X58 false r58_even; X2400 h2400; X58 true r58_uneven; X15 r15; X18 r18; X55 r55_normal; X58 false r58_uneven; X82 t82;
       X1858 q1858; X2411 r2411; X2412 l2412; X2414 a2414_on; X2420 p2420; X2467 l2467; X2414 a2414_nodes].
    cbn [copies_all copies]. repeat constructor; discriminate.
  - intros [C _]. inversion C as [|? ? _ C']; subst. inversion C' as [|? ? [C1 _] _]; subst. vm_compute in C1. discriminate.
  - intro C. unfold tidy, tidy18 in C. rewrite Forall_forall in C. 
    assert (G := C _ (or_intror (or_introl eq_refl))). destruct G as (G & _). vm_compute in G. discriminate.
  - intro C. vm_compute in C. discriminate.
Qed.
(** A node at a subnormal coordinate: its text changes in the first copy, and in no
    other. *)
Definition f_small : float := S754_finite false 202403 (-1074).
Definition d15_small : dict := [(KS "type", VInt 15); (KS "node_nums", VList [VInt 5]); (KS "x", VList [VFloat f_small]); (KS "y", VList [fv "2"]); (KS "z", VList [fv "3"])].
Definition r15_small : list node := [{| n_num := 5; n_def := 0; n_disp := 0; n_color := 0; n_x := f_small; n_y := fl "2"; n_z := fl "3" |}].
Example C82_small_example : (forall c m fd, states c m fd d15_small (X15 r15_small)) /\ calm (X15 r15_small) /\ ~ tidy (X15 r15_small) /\ map line15 (map (round_node (rd 5)) r15_small) <> map line15 r15_small.
Proof.
  split; [|split; [|split]].
  - intros c m fd. cbn [states]. unfold repr15, node_dict, wf15, r15_small. wit; cbn [n_num n_def n_disp n_color n_x n_y n_z]; wit.
  - apply Forall_cons; [|apply Forall_nil]. split; [vm_compute; reflexivity|]. split; vm_compute; reflexivity.
  - intro C. inversion C as [|? ? ((_ & C1) & _) _]; subst. vm_compute in C1. discriminate.
  - vm_compute. discriminate.
Qed.
