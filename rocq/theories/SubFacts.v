(** The difference of two different integers as floats is not zero. *)
From Verif Require Import PyBase PyNum QFacts FloatFacts FloatExact.
From Coq Require Import ZArith QArith Lia SpecFloat.
Open Scope Z_scope.

Lemma shr_1_half : forall r, 0 <= shr_m r -> shr_m (shr_1 r) = shr_m r / 2.
Proof.
  intros [m a b] H. cbn [shr_m] in *. destruct m as [|p|p]; [reflexivity| |lia]. destruct p as [p|p|]; cbn [shr_1 shr_m].
  - rewrite Pos2Z.inj_xI. rewrite Z.mul_comm, Z.div_add_l by lia. change (1 / 2) with 0. lia.
  - rewrite Pos2Z.inj_xO. rewrite Z.mul_comm, Z.div_mul by lia. reflexivity.
  - reflexivity.
Qed.
Lemma shr_iter : forall p r, 0 <= shr_m r -> shr_m (iter_pos shr_1 p r) = shr_m r / 2 ^ Zpos p.
Proof.
  assert (Hn : forall p r, 0 <= shr_m r -> 0 <= shr_m r / 2 ^ Zpos p) by (intros; apply Z.div_pos; [assumption|apply Z.pow_pos_nonneg; lia]).
  induction p as [p IH|p IH|]; intros r H; cbn [iter_pos].
  - assert (H1 : shr_m (shr_1 r) = shr_m r / 2) by (apply shr_1_half; assumption).
    assert (H0 : 0 <= shr_m (shr_1 r)) by (rewrite H1; apply Z.div_pos; lia).
    rewrite IH; rewrite IH by assumption; [|apply Hn; assumption]. rewrite H1. rewrite !Z.div_div by (try apply Z.pow_pos_nonneg; lia).
    assert (E : 2 ^ Zpos p~1 = 2 * (2 ^ Zpos p * 2 ^ Zpos p)).
    { rewrite Pos2Z.inj_xI. replace (2 * Zpos p + 1) with (1 + Zpos p + Zpos p) by lia. rewrite !Z.pow_add_r by lia. rewrite <- Z.mul_assoc. reflexivity. }
    rewrite E. reflexivity.
  - rewrite IH; rewrite IH by assumption; [|apply Hn; assumption]. rewrite !Z.div_div by (try apply Z.pow_pos_nonneg; lia).
    assert (E : 2 ^ Zpos p~0 = 2 ^ Zpos p * 2 ^ Zpos p).
    { rewrite <- Z.pow_add_r by lia. f_equal. lia. }
    rewrite E. reflexivity.
  - apply shr_1_half. assumption.
Qed.

Lemma loc_m : forall m l, shr_m (shr_record_of_loc m l) = m.
Proof. intros m [|[| |]]; reflexivity. Qed.
Lemma fexp_at : forall x, fexp prec emax x = Z.max (x - 53) (-1074).
Proof. reflexivity. Qed.
(** Bringing a positive mantissa to the right number of digits keeps it positive. *)
Lemma shr_fexp_pos : forall m e l, 0 < m -> -1074 <= e ->
  0 < shr_m (fst (shr_fexp prec emax m e l)) /\ -1074 <= snd (shr_fexp prec emax m e l).
Proof.
  intros m e l Hm He. unfold shr_fexp. destruct m as [|m|m]; try lia. cbn [Zdigits2].
  rewrite fexp_at. set (n := Z.max (Zpos (digits2_pos m) + e - 53) (-1074) - e).
  assert (Hb := digits2_bound m). unfold shr. destruct n as [|p|p] eqn:En; cbn [fst snd]; try (rewrite loc_m; lia).
  split; [|lia]. rewrite shr_iter by (rewrite loc_m; lia). rewrite loc_m.
  apply Z.div_str_pos. split; [apply Z.pow_pos_nonneg; lia|]. etransitivity; [|apply Hb]. apply Z.pow_le_mono_r; lia.
Qed.
Lemma rne_pos : forall m l, 0 < m -> 0 < round_nearest_even m l.
Proof. intros m [|[| |]] H; cbn; try lia. destruct (Z.even m); lia. Qed.
Lemma round_aux_nonzero : forall s m e l, 0 < m -> -1074 <= e -> forall z, binary_round_aux prec emax s m e l <> S754_zero z.
Proof.
  intros s m e l Hm He z. unfold binary_round_aux. destruct (shr_fexp_pos m e l Hm He) as [H1 H2].
  destruct (shr_fexp prec emax m e l) as [r e1]. cbn [fst snd] in *.
  destruct (shr_fexp_pos (round_nearest_even (shr_m r) (loc_of_shr_record r)) e1 loc_Exact (rne_pos _ _ H1) H2) as [H3 _].
  destruct (shr_fexp prec emax _ e1 loc_Exact) as [r2 e2]. cbn [fst snd] in *.
  destruct (shr_m r2); try lia. destruct (e2 <=? emax - prec); discriminate.
Qed.
Lemma round_nonzero : forall s m e z, -1074 <= e -> binary_round prec emax s m e <> S754_zero z.
Proof.
  intros s m e z He. unfold binary_round, shl_align. rewrite fexp_at.
  destruct (Z.max (Zpos (digits2_pos m) + e - 53) (-1074) - e) as [|p|p] eqn:E; apply round_aux_nonzero; lia.
Qed.
Lemma normalize_nonzero : forall m e b z, m <> 0 -> -1074 <= e -> binary_normalize prec emax m e b <> S754_zero z.
Proof. intros [|m|m] e b z Hm He; [congruence| |]; cbn [binary_normalize]; apply round_nonzero; assumption. Qed.

Lemma shl_align_value : forall m e e', e' <= e -> Zpos (fst (shl_align m e e')) = Zpos m * 2 ^ (e - e').
Proof.
  intros m e e' H. unfold shl_align. destruct (e' - e) as [|p|p] eqn:E; try lia; cbn [fst].
  - replace (e - e') with 0 by lia. lia.
  - replace (e - e') with (Zpos p) by lia. assert (G : forall q, Zpos (shift_pos q m) = Zpos m * 2 ^ Zpos q).
    { intro q. rewrite shift_pos_correct. rewrite Zpower_pos_nat. rewrite <- (positive_nat_Z q). rewrite Zpower_nat_Z. lia. }
    apply G.
Qed.

Lemma sub_int_nonzero : forall a b, Z.abs a < 2 ^ 53 -> Z.abs b < 2 ^ 53 -> a <> b -> forall s, f_sub (float_of_Z a) (float_of_Z b) <> S754_zero s.
Proof.
  intros a b Ha Hb Hab s. destruct (Z.eq_dec a 0) as [->|Na]; [|destruct (Z.eq_dec b 0) as [->|Nb]].
  - destruct (float_of_Z_exact b Hb ltac:(congruence)) as (m & e & -> & _). discriminate.
  - destruct (float_of_Z_exact a Ha Na) as (m & e & -> & _). discriminate.
  - destruct (float_of_Z_exact a Ha Na) as (m & e & -> & Hc & Hq & _). destruct (float_of_Z_exact b Hb Nb) as (m' & e' & -> & Hc' & Hq' & _).
    unfold f_sub, SFsub. apply normalize_nonzero.
    + rewrite !shl_align_value by lia. set (ez := Z.min e e').
      assert (V : forall m0 e0 z, ez <= e0 -> (qm m0 e0 == inject_Z (Z.abs z))%Q ->
        (inject_Z (Zpos m0 * 2 ^ (e0 - ez)) * bpow 2 ez == inject_Z (Z.abs z))%Q).
      { intros m0 e0 z He H. rewrite <- H. unfold qm. rewrite inject_Z_mult. rewrite <- bpow_Z by lia. rewrite <- Qmult_assoc, <- bpow_add by lia.
        replace (e0 - ez + ez) with e0 by lia. reflexivity. }
      assert (V1 := V m e a ltac:(unfold ez; lia) Hq). assert (V2 := V m' e' b ltac:(unfold ez; lia) Hq'). clear V.
      set (x := Zpos m * 2 ^ (e - ez)) in *. set (y := Zpos m' * 2 ^ (e' - ez)) in *.
      assert (Px : 0 < x) by (apply Z.mul_pos_pos; [lia|apply Z.pow_pos_nonneg; unfold ez; lia]).
      assert (Py : 0 < y) by (apply Z.mul_pos_pos; [lia|apply Z.pow_pos_nonneg; unfold ez; lia]).
      assert (Hxy : x = y -> Z.abs a = Z.abs b).
      { intro E. rewrite E, V2 in V1. apply (proj1 (inject_Z_injective _ _)) in V1. symmetry. exact V1. }
      unfold cond_Zopp. destruct (Z.ltb_spec a 0), (Z.ltb_spec b 0); intro E; try lia; apply Hab; assert (Exy : x = y) by lia; specialize (Hxy Exy); clear -Hxy H H0; lia.
    + destruct Hc as (_ & Hc & _). destruct Hc' as (_ & Hc' & _). change PyNum.emin with (-1074) in *. lia.
Qed.
Lemma sub_int_neq : forall a b, Z.abs a < 2 ^ 53 -> Z.abs b < 2 ^ 53 -> a <> b -> SFeqb (f_sub (float_of_Z a) (float_of_Z b)) f_zero = false.
Proof.
  intros a b Ha Hb Hab. assert (N := sub_int_nonzero a b Ha Hb Hab).
  destruct (f_sub (float_of_Z a) (float_of_Z b)) as [s|s| |s m e]; [exfalso; exact (N s eq_refl)|destruct s; reflexivity|reflexivity|destruct s; reflexivity].
Qed.
