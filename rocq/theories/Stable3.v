(** Writing what was read, continued: 58. *)
From Verif Require Import PyBase PyNum PyVal Utf8 Tools DsNodes DsHeaders DsGroups Ds55 Ds58 Ds2414 Uff Facts IntFacts FloatFacts DecFacts FloatText FloatExact
  CplxFacts DictFacts Scan Container Append ContainerThms Utf8Facts Lines Stored Cells Rows RtNodes RtCs RtHeads RtElems RtGroups RtNodal RtFun RtFunSet RtAnalysis SubFacts PropReread Stable Stable2.
From Coq Require Import Lia.
Open Scope nat_scope.
Open Scope list_scope.

(** The ordinates and abscissas that are read. *)
Definition ys_read (bin : bool) (r : func58) : list (float * float) := map snd (map (if bin then npt else rpt (q_dbl r)) (q_pts r)).
Definition xs_read (bin : bool) (r : func58) : list float :=
  if q_even r then map (fun i => f_add (rd 5 (q_min r)) (f_mul (float_of_Z (Z.of_nat i)) (rd 5 (q_inc r)))) (seq 0 (length (q_pts r)))
  else map fst (map (if bin then npt else rpt (q_dbl r)) (q_pts r)).
Definition text5 (f : float) : str := fmt_e false 5 f.
Definition clean_axis (a : axis) : Prop := strip (x_lab a) = x_lab a /\ strip (x_units a) = x_units a.
Definition tidy_y (bin cplx : bool) (y : float * float) : Prop :=
  (bin = false -> normalf (nan_to_num1 (fst y)) /\ normalf (nan_to_num1 (snd y))) /\
  (cplx = true -> nan_to_num1 (fst y) <> SpecFloat.S754_zero true /\ nan_to_num1 (snd y) <> SpecFloat.S754_zero true).
(** The step and start derived from the abscissas that are read print as the stored ones. *)
Definition tidy_x (bin : bool) (r : func58) : Prop :=
  Forall okfin (xs_read bin r) /\
  exists x0 x1 rest, xs_read bin r = x0 :: x1 :: rest /\ f_finite (f_sub x1 x0) = true /\ okf (times (q_even r) (f_sub x1 x0)) /\
    text5 (times (q_even r) x0) = text5 (q_min r) /\ text5 (times (q_even r) (f_sub x1 x0)) = text5 (q_inc r) /\
    (bin = false -> q_even r = false -> Forall (fun p => normalf (fst p)) (q_pts r)).
Definition tidy58 (bin : bool) (r : func58) : Prop :=
  Forall (trim 80) (q_ids r) /\ strip (q_rsp r) = q_rsp r /\ strip (q_ref r) = q_ref r /\
  clean_axis (q_abs r) /\ clean_axis (q_ord r) /\ clean_axis (q_den r) /\ clean_axis (q_zax r) /\
  normalf (q_zval r) /\ tidy_x bin r /\ Forall (fun p => tidy_y bin (q_cplx r) (snd p)) (q_pts r).

(** The same with subnormal numbers: the step and start are read as the stored ones. *)
Definition loose_y (cplx : bool) (y : float * float) : Prop :=
  cplx = true -> nan_to_num1 (fst y) <> SpecFloat.S754_zero true /\ nan_to_num1 (snd y) <> SpecFloat.S754_zero true.
Definition loose_x (bin : bool) (r : func58) : Prop :=
  Forall okfin (xs_read bin r) /\
  exists x0 x1 rest, xs_read bin r = x0 :: x1 :: rest /\ f_finite (f_sub x1 x0) = true /\ okf (times (q_even r) (f_sub x1 x0)) /\
    rd 5 (times (q_even r) x0) = rd 5 (q_min r) /\ rd 5 (times (q_even r) (f_sub x1 x0)) = rd 5 (q_inc r).
Definition loose58 (bin : bool) (r : func58) : Prop :=
  Forall (trim 80) (q_ids r) /\ strip (q_rsp r) = q_rsp r /\ strip (q_ref r) = q_ref r /\
  clean_axis (q_abs r) /\ clean_axis (q_ord r) /\ clean_axis (q_den r) /\ clean_axis (q_zax r) /\
  loose_x bin r /\ Forall (fun p => loose_y (q_cplx r) (snd p)) (q_pts r).
Lemma text5_rd : forall a b, text5 a = text5 b -> rd 5 a = rd 5 b.
Proof.
  intros a b H. unfold text5 in H. assert (A := py_float_rjust 13 false 5 a). assert (B := py_float_rjust 13 false 5 b). rewrite H, B in A. congruence.
Qed.
Lemma tidy_loose58 : forall bin r, tidy58 bin r -> loose58 bin r.
Proof.
  intros bin r (T1 & T2 & T3 & T4 & T5 & T6 & T7 & _ & T9 & T10). do 7 (split; [assumption|]). split.
  - destruct T9 as (F & x0 & x1 & rest & E & Ff & Fo & E0 & E1 & _). split; [exact F|]. exists x0, x1, rest. do 3 (split; [assumption|]).
    split; apply text5_rd; assumption.
  - eapply Forall_impl; [|exact T10]. intros p [_ H]. exact H.
Qed.

Definition round58 (bin : bool) (r : func58) : func58 :=
  let xs := xs_read bin r in
  let x0 := nth 0 xs f_zero in let x1 := nth 1 xs f_zero in
  {| q_ids := q_ids r; q_type := q_type r; q_id := q_id r; q_ver := q_ver r; q_lc := q_lc r; q_rsp := q_rsp r; q_rspn := q_rspn r; q_rspd := q_rspd r;
     q_ref := q_ref r; q_refn := q_refn r; q_refd := q_refd r; q_cplx := q_cplx r; q_dbl := q_dbl r; q_even := q_even r;
     q_min := times (q_even r) x0; q_inc := times (q_even r) (f_sub x1 x0); q_zval := rd 5 (q_zval r);
     q_abs := q_abs r; q_ord := q_ord r; q_den := q_den r; q_zax := q_zax r; q_pts := combine xs (ys_read bin r) |}.

Lemma xs_len : forall (bin : bool) r, length (xs_read bin r) = length (q_pts r).
Proof. intros bin r. unfold xs_read. destruct (q_even r); rewrite !map_length, ?seq_length; reflexivity. Qed.
Lemma ys_len : forall (bin : bool) r, length (ys_read bin r) = length (q_pts r).
Proof. intros bin r. unfold ys_read. rewrite !map_length. reflexivity. Qed.
Lemma combine_fst : forall A B (a : list A) (b : list B), length a = length b -> map fst (combine a b) = a.
Proof. induction a as [|x a IH]; intros [|y b] H; try discriminate; [reflexivity|]. cbn. f_equal. apply IH. cbn in H. lia. Qed.
Lemma combine_snd : forall A B (a : list A) (b : list B), length a = length b -> map snd (combine a b) = b.
Proof. induction a as [|x a IH]; intros [|y b] H; try discriminate; [reflexivity|]. cbn. f_equal. apply IH. cbn in H. lia. Qed.
Lemma x_out_read : forall (bin : bool) r, x_out (q_even r) (rd 5 (q_min r)) (rd 5 (q_inc r)) (map (if bin then npt else rpt (q_dbl r)) (q_pts r)) = vfloats (xs_read bin r).
Proof. intros bin r. unfold x_out, xs_read, arange_x. rewrite map_length. destruct (q_even r); reflexivity. Qed.
Lemma ntn_fin : forall f, f_finite f = true -> nan_to_num1 f = f.
Proof. intros [s|s| |s m e] H; try discriminate; reflexivity. Qed.
Lemma y_short : forall dbl : bool, short (if dbl then 11 else 5).
Proof. intros []; [exact short11|exact short5]. Qed.

Lemma ordinates_again : forall (bin : bool) r, wf58 r -> Forall (fun p => loose_y (q_cplx r) (snd p)) (q_pts r) ->
  ordinates (q_cplx r) (y_out (q_cplx r) (map (if bin then npt else rpt (q_dbl r)) (q_pts r))) (ys_read bin r).
Proof.
  intros bin r W T. assert (Hp0 := wf58_pts r W). rewrite Forall_forall in Hp0. unfold y_out, ys_read. rewrite !map_map. destruct (q_cplx r) eqn:Ec.
  - split; [exact Logic.I|]. do 2 eexists. split; [reflexivity|]. split; [split; reflexivity|]. apply Forall2_maps. intros p Hp.
    rewrite Forall_forall in T. destruct (T p Hp eq_refl) as [Ta Tb]. destruct bin.
    + cbn [npt fst snd]. destruct (parts_plus0 _ _ Ta Tb) as [-> ->]. split; reflexivity.
    + destruct (Hp0 p Hp) as (_ & V1 & V2). apply ntn_ok in V1. apply ntn_ok in V2. cbn [rpt fst snd].
      destruct (parts_plus0 (rd (if q_dbl r then 11 else 5) (nan_to_num1 (fst (snd p)))) (rd (if q_dbl r then 11 else 5) (nan_to_num1 (snd (snd p))))) as [-> ->];
        [apply rd_loose; [destruct (q_dbl r); lia|apply y_short|split; [apply V1 || apply V2|assumption]]..|]. split; reflexivity.
  - split; [exact Logic.I|]. do 2 eexists. split; [reflexivity|]. split; [split; discriminate|]. rewrite !map_map. apply Forall2_maps. reflexivity.
Qed.
Ltac ax := cbn [String.append]; unfold repr_axis; cbn [String.append];
  split; [left; entry; reflexivity|]; split; [left; entry; reflexivity|]; split; [left; entry; reflexivity|];
  split; left; entry; unfold as_txt; cbn [to_str]; f_equal; assumption.
Lemma again58 : forall (fd bin : bool) r, length (q_ids r) = 5 -> (fd = true -> q_dbl r = true) -> wf58 r -> loose58 bin r ->
  repr58 fd bin (read58 bin false r) (round58 bin r).
Proof.
  intros fd bin r Hi Hfd W (T1 & T2 & T3 & T4 & T5 & T6 & T7 & T9 & T10).
  assert (Y := ordinates_again bin r W T10). unfold read58. rewrite x_out_read.
  assert (Lxy : length (xs_read bin r) = length (ys_read bin r)) by (rewrite xs_len, ys_len; reflexivity).
  assert (X : abscissa (vfloats (xs_read bin r)) (q_even r) (xs_read bin r) (times (q_even r) (nth 0 (xs_read bin r) f_zero))
     (times (q_even r) (f_sub (nth 1 (xs_read bin r) f_zero) (nth 0 (xs_read bin r) f_zero)))).
  { destruct T9 as (F & x0 & x1 & rest & E & Ff & _). rewrite E. cbn [nth]. left. exists x0, x1, rest. repeat split; auto. }
  revert X Y. generalize (y_out (q_cplx r) (map (if bin then npt else rpt (q_dbl r)) (q_pts r))) as yv. generalize (vfloats (xs_read bin r)) as xv. intros xv yv X Y.
  unfold repr58. cbn [round58 q_ids q_type q_id q_ver q_lc q_rsp q_rspn q_rspd q_ref q_refn q_refd q_cplx q_dbl q_even q_min q_inc q_zval q_abs q_ord q_den q_zax q_pts].
  rewrite combine_fst, combine_snd by exact Lxy.
  assert (Eo : odt58 (round58 bin r) = odt58 r) by reflexivity. rewrite Eo. clear Eo.
  assert (Ee : forall e : bool, as_truth (even_val e) e) by (intros []; reflexivity).
  assert (Eb : as_truth (VInt (if bin then 1 else 0)) bin) by (destruct bin; reflexivity).
  revert X Y. generalize (xs_read bin r) as xs. generalize (ys_read bin r) as ys. intros ys xs X Y.
  unfold base58, head_out. set (nb := n_bytes58 r). set (odt := odt58 r). set (ev := even_val (q_even r)) in *.
  destruct r as [ids ty id ver lc rsp rspn rspd ref refn refd cplx dbl even mn inc zval [a1 a2 a3 a4 a5 a6] [b1 b2 b3 b4 b5 b6] [c1 c2 c3 c4 c5 c6] [e1 e2 e3 e4 e5 e6] pts].
  cbn [q_ids q_type q_id q_ver q_lc q_rsp q_rspn q_rspd q_ref q_refn q_refd q_cplx q_dbl q_even q_min q_inc q_zval q_abs q_ord q_den q_zax q_pts
       x_spec x_len x_force x_temp x_lab x_units] in *.
  destruct ids as [|s0 [|s1 [|s2 [|s3 [|s4 [|? ?]]]]]]; try discriminate.
  destruct T4 as [T4a T4b], T5 as [T5a T5b], T6 as [T6a T6b], T7 as [T7a T7b]. cbn [x_lab x_units] in *.
  repeat match goal with H : Forall (trim 80) (_ :: _) |- _ => inversion H; clear H; subst end.
  destruct bin; cbv iota.
  all: split; [reflexivity|].
  all: split; [unfold id_keys; repeat (constructor; [left; entry; unfold as_txt; cbn [to_str]; f_equal; apply trim_read; assumption|]); constructor|].
  all: split; [entry; apply is_num_VInt|]; do 3 (split; [left; entry; reflexivity|]).
  all: split; [left; entry; unfold as_txt; cbn [to_str]; f_equal; assumption|]; do 2 (split; [entry; reflexivity|]).
  all: split; [left; entry; unfold as_txt; cbn [to_str]; f_equal; assumption|]; do 2 (split; [entry; reflexivity|]).
  all: split; [destruct fd; [apply Hfd; reflexivity|entry; apply is_num_VInt]|].
  all: split; [left; entry; apply Ee|]; split; [left; entry; reflexivity|]; split; [left; entry; exact Eb|].
  all: do 2 (split; [left; entry; reflexivity|]); split; [entry; reflexivity|]; split; [left; entry; reflexivity|].
  all: split; [ax|]; split; [ax|]; split; [ax|]; split; [ax|].
  all: split; [entry; exact X|entry; exact Y].
Qed.

Lemma okpt_read : forall (bin : bool) dbl p, okpt p -> okf (fst (snd ((if bin then npt else rpt dbl) p))) /\ okf (snd (snd ((if bin then npt else rpt dbl) p))).
Proof.
  intros bin dbl p (_ & H1 & H2). apply ntn_ok in H1. apply ntn_ok in H2. destruct bin; cbn [npt rpt fst snd].
  - split; [apply H1|apply H2].
  - split; (apply rd_valid; [apply y_short|]); [apply H1|apply H2].
Qed.
Lemma Forall_combine : forall A B (P : A -> Prop) (Q : B -> Prop) a b, Forall P a -> Forall Q b -> Forall (fun p => P (fst p) /\ Q (snd p)) (combine a b).
Proof.
  intros A B P Q a b Ha. revert b. induction Ha as [|x a Hx _ IH]; intros b Hb; [constructor|]. destruct Hb as [|y b Hy Hb]; constructor; [split; assumption|].
  apply IH. exact Hb.
Qed.
Lemma wf_round58 : forall (bin : bool) r, wf58 r -> loose58 bin r -> wf58 (round58 bin r).
Proof.
  intros bin r W (_ & _ & _ & _ & _ & _ & _ & T9 & _). assert (Hp := wf58_pts r W).
  destruct W as (W1 & W2 & W3 & W4 & W5 & W6 & W7 & W8 & W9 & W10 & W11 & W12 & W13 & W14 & W15 & W16 & W17 & W18 & W19 & W20 & W21 & _).
  destruct T9 as (F & x0 & x1 & rest & E & Ff & Fo & _). unfold wf58.
  cbn [round58 q_ids q_type q_id q_ver q_lc q_rsp q_rspn q_rspd q_ref q_refn q_refd q_cplx q_dbl q_even q_min q_inc q_zval q_abs q_ord q_den q_zax q_pts].
  do 13 (split; [assumption|]).
  split; [rewrite combine_length, xs_len, ys_len, Nat.min_id; assumption|].
  split; [rewrite E; cbn [nth]; rewrite E in F; inversion F as [|? ? [G _] _]; subst; destruct (q_even r); [exact G|reflexivity]|].
  split; [rewrite E; cbn [nth]; exact Fo|]. split; [apply rd5_okf; exact W17|]. do 4 (split; [assumption|]).
  eapply Forall_impl; [|apply (Forall_combine _ _ okfin (fun y => okf (fst y) /\ okf (snd y)) _ _ F)]; [intros p [A B]; exact (conj A B)|].
  unfold ys_read. rewrite map_map, Forall_map. eapply Forall_impl; [|exact Hp]. intros p Hpp. apply okpt_read. exact Hpp.
Qed.

Lemma Forall2_firstn : forall A B (P : A -> B -> Prop) k a b, Forall2 P a b -> Forall2 P (firstn k a) (firstn k b).
Proof. intros A B P k a b H. revert k. induction H; intros [|k]; constructor; auto. Qed.
Lemma Forall2_skipn : forall A B (P : A -> B -> Prop) k a b, Forall2 P a b -> Forall2 P (skipn k a) (skipn k b).
Proof. intros A B P k a b H. revert k. induction H; intros [|k]; cbn [skipn]; try constructor; auto. Qed.
Definition same_pt (r : func58) (p p' : pt) : Prop :=
  map cell_text (p_cells (q_cplx r) (q_even r) (q_dbl r) p') = map cell_text (p_cells (q_cplx r) (q_even r) (q_dbl r) p).
Lemma same_lines : forall r pts pts', Forall2 (same_pt r) pts pts' ->
  data_lines (q_cplx r) (q_even r) (q_dbl r) pts' = data_lines (q_cplx r) (q_even r) (q_dbl r) pts.
Proof.
  intros r pts pts' H. unfold data_lines, chunks. rewrite <- (Forall2_len _ _ _ _ _ H), !map_map. apply map_ext. intro i. unfold chunk.
  assert (G : Forall2 (same_pt r) (firstn (per_line (q_cplx r) (q_even r) (q_dbl r)) (skipn (per_line (q_cplx r) (q_even r) (q_dbl r) * i) pts))
     (firstn (per_line (q_cplx r) (q_even r) (q_dbl r)) (skipn (per_line (q_cplx r) (q_even r) (q_dbl r) * i) pts'))) by (apply Forall2_firstn, Forall2_skipn; exact H).
  unfold line58, cells_text. f_equal. induction G as [|p p' a b Hp _ IH]; [reflexivity|]. cbn [flat_map]. rewrite !map_app, IH. f_equal. exact Hp.
Qed.
Lemma Forall2_combine : forall A B C (P : C -> A * B -> Prop) (f : C -> A) (g : C -> B) l, (forall c, In c l -> P c (f c, g c)) ->
  Forall2 P l (combine (map f l) (map g l)).
Proof.
  intros A B C P f g l. induction l as [|c l IH]; intro H; [constructor|]. constructor; [apply H; left; reflexivity|]. apply IH. intros x Hx. apply H. right. exact Hx.
Qed.
Lemma Forall2_combine' : forall A B C (P : C -> A * B -> Prop) (a : list A) (g : C -> B) l, length a = length l -> (forall c x, In c l -> P c (x, g c)) ->
  Forall2 P l (combine a (map g l)).
Proof.
  intros A B C P a g l. revert a. induction l as [|c l IH]; intros [|x a] L H; try discriminate; [constructor|]. constructor; [apply H; left; reflexivity|].
  apply IH; [cbn in L; lia|]. intros y z Hy. apply H. right. exact Hy.
Qed.
(** Text form: each point prints the same. *)
Lemma points_text : forall r, wf58 r -> tidy58 false r -> Forall2 (same_pt r) (q_pts r) (q_pts (round58 false r)).
Proof.
  intros r W (_ & _ & _ & _ & _ & _ & _ & _ & T9 & T10). assert (Hp := wf58_pts r W). destruct T9 as (_ & _ & _ & _ & _ & _ & _ & _ & _ & Tx).
  specialize (Tx eq_refl). rewrite Forall_forall in T10, Hp.
  assert (G : forall p x, In p (q_pts r) -> (q_even r = false -> text5 x = text5 (fst p)) -> same_pt r p (x, snd (rpt (q_dbl r) p))).
  { intros p x Hin Hx. destruct (T10 p Hin) as [Ty _]. destruct (Ty eq_refl) as [N1 N2]. destruct (Hp p Hin) as (_ & V1 & V2). apply ntn_ok in V1. apply ntn_ok in V2.
    unfold same_pt, p_cells, p_vals, p_fmts, fmt_cells. cbn [rpt fst snd].
    rewrite !(ntn_fin (rd _ _)) by (apply rd_finite; [apply y_short|apply V1 || apply V2|apply V1 || apply V2]).
    assert (S : forall p f, short p -> normalf f -> fmt_e false p (rd p f) = fmt_e false p f) by (intros q f Hq [V N]; apply rd_stable; assumption).
    destruct (q_even r), (q_cplx r), (q_dbl r); cbn [app combine map fst snd cell_text]; rewrite ?(S 11 _ short11 N1), ?(S 11 _ short11 N2), ?(S 5 _ short5 N1), ?(S 5 _ short5 N2);
      try reflexivity; unfold text5 in Hx; rewrite (Hx eq_refl); reflexivity. }
  cbn [round58 q_pts]. unfold ys_read. rewrite map_map. destruct (q_even r) eqn:Ee.
  - apply Forall2_combine'; [rewrite xs_len; reflexivity|]. intros p x Hin. apply G; [exact Hin|discriminate].
  - unfold xs_read. rewrite Ee, map_map. apply Forall2_combine. intros p Hin. apply G; [exact Hin|]. intros _. cbn [rpt fst].
    specialize (Tx eq_refl). rewrite Forall_forall in Tx. apply rd5_text. apply Tx. exact Hin.
Qed.
Lemma head_round58 : forall (bin : bool) r, tidy58 bin r -> hd58 (round58 bin r) = hd58 r.
Proof.
  intros bin r (_ & _ & _ & _ & _ & _ & _ & T8 & T9 & _). destruct T9 as (_ & x0 & x1 & rest & E & _ & _ & E0 & E1 & _). unfold hd58. f_equal.
  cbn [round58 q_ids q_type q_id q_ver q_lc q_rsp q_rspn q_rspd q_ref q_refn q_refd q_cplx q_dbl q_even q_min q_inc q_zval q_abs q_ord q_den q_zax q_pts map].
  f_equal. f_equal. unfold cells_text, rec7f. f_equal.
  cbn [round58 q_ids q_type q_id q_ver q_lc q_rsp q_rspn q_rspd q_ref q_refn q_refd q_cplx q_dbl q_even q_min q_inc q_zval q_abs q_ord q_den q_zax q_pts map].
  rewrite combine_length, xs_len, ys_len, Nat.min_id. rewrite E. cbn [nth cell_text]. unfold text5 in E0, E1. rewrite E0, E1, rd5_text by assumption. reflexivity.
Qed.
Lemma same58 : forall c m fd d r, repr58 fd false d r -> wf58 r -> tidy58 false r -> forall c' m' fd', (fd' = true -> q_dbl r = true) ->
  exists new, forall start, run_items start (set_items c m fd d) = (start ++ new, None) /\ run_items start (set_items c' m' fd' (read58 false false r)) = (start ++ new, None).
Proof.
  intros c m fd d r R W T c' m' fd' Hfd. assert (Hi := repr58_ids _ _ _ _ R).
  eapply text_set_again; [exact (set58 c m fd false d r R W)|].
  assert (E : lines58 (round58 false r) = lines58 r).
  { unfold lines58. rewrite head_round58 by assumption. f_equal. apply (same_lines r). apply points_text; assumption. }
  rewrite <- E. exact (set58 c' m' fd' false _ _ (again58 fd' false r Hi Hfd W (tidy_loose58 _ _ T)) (wf_round58 false r W (tidy_loose58 _ _ T))).
Qed.

(** Binary form: the bytes written. *)
Lemma bytes58b : forall c fd d r, repr58 fd true d r -> wf58 r -> (n_bytes58 r < 10 ^ 12)%Z ->
  exists hb, utf8_enc (unlines (l0_58 true r :: hd58 r)) = Some hb /\
    forall start, run_items start (set_items c Add fd d) = (start ++ TLINE ++ hb ++ payload r ++ TLINE, None).
Proof.
  intros c fd d r R W Hnb. destruct (bin_ok _ (conj (n_bytes_pos r) Hnb)) as (_ & Hb & Hty).
  assert (Hok : Forall okline (l0_58 true r :: hd58 r)) by (constructor; [exact Hb|apply hd58_ok; assumption]).
  destruct (text_block_ok 58 (l0_58 true r) (hd58 r) Hok Hty) as (hb & He & _).
  destruct (write58_items c Add fd true d r R W) as (T & Es & HT). exists hb. split; [exact He|]. intro start.
  assert (He' : utf8_enc (unlines (TAG :: l0_58 true r :: hd58 r)) = Some (TLINE ++ hb)).
  { change (unlines (TAG :: l0_58 true r :: hd58 r)) with (TLINE ++ unlines (l0_58 true r :: hd58 r)). rewrite utf8_enc_app, TLINE_enc, He. reflexivity. }
  rewrite Es. rewrite (run_writes T _ (TLINE ++ hb) _ _ HT He'). cbn [tail58 app]. rewrite app_nil_r, run_raw.
  rewrite (writes_run [end_line] TLINE end_writes TLINE _ TLINE_enc). unfold payload. rewrite <- !app_assoc. reflexivity.
Qed.
Lemma payload_round : forall r, wf58 r -> payload (round58 true r) = payload r.
Proof.
  intros r W. assert (Hp := wf58_pts r W). rewrite Forall_forall in Hp. unfold payload. f_equal. f_equal. cbn [round58 q_cplx q_even q_pts].
  assert (G : Forall2 (fun p p' => p_vals (q_cplx r) (q_even r) p' = p_vals (q_cplx r) (q_even r) p) (q_pts r) (combine (xs_read true r) (ys_read true r))).
  { assert (G : forall p x, In p (q_pts r) -> (q_even r = false -> x = fst p) -> p_vals (q_cplx r) (q_even r) (x, snd (npt p)) = p_vals (q_cplx r) (q_even r) p).
    { intros p x Hin Hx. destruct (Hp p Hin) as (_ & V1 & V2). apply ntn_ok in V1. apply ntn_ok in V2. unfold p_vals. cbn [npt fst snd].
      rewrite !(ntn_fin (nan_to_num1 _)) by (apply V1 || apply V2). destruct (q_even r); [reflexivity|]. rewrite (Hx eq_refl). reflexivity. }
    unfold ys_read. rewrite map_map. destruct (q_even r) eqn:Ee.
    - apply Forall2_combine'; [apply xs_len|]. intros p x Hin. apply G; [exact Hin|discriminate].
    - unfold xs_read. rewrite Ee, map_map. apply Forall2_combine. intros p Hin. apply G; [exact Hin|]. reflexivity. }
  induction G as [|p p' a b Hpp _ IH]; [reflexivity|]. cbn [flat_map]. rewrite Hpp. f_equal. apply IH. intros q Hq. apply Hp. right. exact Hq.
Qed.
Lemma same58b : forall c fd d r, repr58 fd true d r -> wf58 r -> (n_bytes58 r < 10 ^ 12)%Z -> tidy58 true r -> forall c' fd', (fd' = true -> q_dbl r = true) ->
  exists new, forall start, run_items start (set_items c Add fd d) = (start ++ new, None) /\ run_items start (set_items c' Add fd' (read58 true false r)) = (start ++ new, None).
Proof.
  intros c fd d r R W Hnb T c' fd' Hfd. assert (Hi := repr58_ids _ _ _ _ R).
  assert (Enb : n_bytes58 (round58 true r) = n_bytes58 r).
  { unfold n_bytes58. cbn [round58 q_pts q_dbl]. rewrite combine_length, xs_len, ys_len, Nat.min_id. reflexivity. }
  destruct (bytes58b c fd d r R W Hnb) as (hb & He & Hr).
  destruct (bytes58b c' fd' _ _ (again58 fd' true r Hi Hfd W (tidy_loose58 _ _ T)) (wf_round58 true r W (tidy_loose58 _ _ T)) ltac:(rewrite Enb; exact Hnb)) as (hb' & He' & Hr').
  exists (TLINE ++ hb ++ payload r ++ TLINE). intro start. split; [apply Hr|]. rewrite Hr'.
  rewrite head_round58, payload_round in * by assumption. unfold l0_58 in *. rewrite Enb in He'. rewrite He in He'. injection He' as <-. reflexivity.
Qed.

(** Evenly spaced from zero: the step is kept. *)
Lemma tidy_x_zero : forall (bin : bool) r, q_even r = true -> q_min r = f_zero -> 2 <= length (q_pts r) ->
  plus0 (q_inc r) -> f_finite (q_inc r) = true -> Forall okfin (xs_read bin r) -> tidy_x bin r.
Proof.
  intros bin r He Hm Hl Hi Hf Hx. split; [exact Hx|]. unfold xs_read in *. rewrite He, Hm in *. change (rd 5 f_zero) with f_zero in *.
  assert (P := rd_plus0 5 _ short5 Hi). destruct Hi as [[V N] Hz].
  assert (V' := rd5_valid _ V). assert (F' := rd_finite 5 _ short5 V Hf). set (inc := rd 5 (q_inc r)) in *.
  destruct (length (q_pts r)) as [|[|n]]; [lia|lia|]. cbn [seq map Z.of_nat] in *.
  assert (M1 := f_mul_one inc V' F').
  assert (E0 : f_add f_zero (f_mul f_zero inc) = f_zero) by (destruct inc as [[]|[]| |[] ? ?]; try discriminate; reflexivity).
  assert (E1 : f_add f_zero inc = inc) by (destruct inc as [[]|[]| |[] ? ?]; try discriminate; try congruence; reflexivity).
  assert (E2 : f_sub inc f_zero = inc) by (destruct inc as [[]|[]| |[] ? ?]; try discriminate; try congruence; reflexivity).
  do 3 eexists. split; [reflexivity|]. change (float_of_Z 0) with f_zero. change (float_of_Z (Z.pos (Pos.of_succ_nat 0))) with f_one. rewrite M1, E0, E1, E2. cbn [times].
  split; [exact F'|]. split; [exact V'|]. split; [reflexivity|]. split; [|intros; congruence]. unfold text5. apply rd5_text. split; assumption.
Qed.
