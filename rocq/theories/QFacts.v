(** Rational arithmetic behind the number conversions of [PyNum]: scaling,
    logarithms, rounding.  Everything is over [Q]; no axioms. *)
From Verif Require Import PyBase PyNum.
From Coq Require Import QArith Qpower Qabs Lqa Lia.
Open Scope Z_scope.

Definition qv (n d : Z) : Q := (inject_Z n / inject_Z d)%Q.
Definition bpow (b e : Z) : Q := ((inject_Z b) ^ e)%Q.

Lemma inject_pos : forall z, 0 < z -> (0 < inject_Z z)%Q.
Proof. intros z H. change 0%Q with (inject_Z 0). rewrite <- Zlt_Qlt. assumption. Qed.
Lemma inject_le : forall a b, a <= b -> (inject_Z a <= inject_Z b)%Q.
Proof. intros. rewrite <- Zle_Qle. assumption. Qed.
Lemma inject_lt : forall a b, a < b -> (inject_Z a < inject_Z b)%Q.
Proof. intros. rewrite <- Zlt_Qlt. assumption. Qed.
Lemma inject_nz : forall z, 0 < z -> ~ (inject_Z z == 0)%Q.
Proof. intros z H E. apply inject_pos in H. lra. Qed.

Lemma bpow_pos : forall b e, 2 <= b -> (0 < bpow b e)%Q.
Proof. intros b e H. unfold bpow. apply Qpower_0_lt. apply inject_pos. lia. Qed.
Lemma bpow_add : forall b e f, 2 <= b -> (bpow b (e + f) == bpow b e * bpow b f)%Q.
Proof. intros b e f H. unfold bpow. apply Qpower_plus. apply inject_nz. lia. Qed.
Lemma bpow_Z : forall b e, 0 <= e -> (bpow b e == inject_Z (b ^ e))%Q.
Proof. intros b e H. unfold bpow. symmetry. apply Zpower_Qpower. assumption. Qed.
Lemma bpow_opp : forall b e, 2 <= b -> (bpow b (- e) * bpow b e == 1)%Q.
Proof. intros b e H. rewrite <- bpow_add by assumption. replace (- e + e) with 0 by lia. reflexivity. Qed.
Lemma bpow_0 : forall b, (bpow b 0 == 1)%Q.
Proof. reflexivity. Qed.
Lemma bpow_1 : forall b, (bpow b 1 == inject_Z b)%Q.
Proof. intro b. rewrite bpow_Z by lia. rewrite Z.pow_1_r. reflexivity. Qed.
Lemma bpow_ge1 : forall b e, 2 <= b -> 0 <= e -> (1 <= bpow b e)%Q.
Proof.
  intros b e Hb He. rewrite bpow_Z by assumption. change 1%Q with (inject_Z 1). apply inject_le.
  assert (0 < b ^ e) by (apply Z.pow_pos_nonneg; lia). lia.
Qed.
Lemma bpow_le : forall b e f, 2 <= b -> e <= f -> (bpow b e <= bpow b f)%Q.
Proof.
  intros b e f Hb H. replace f with (e + (f - e)) by lia. rewrite bpow_add by assumption.
  assert (H1 := bpow_ge1 b (f - e) Hb ltac:(lia)). assert (H2 := bpow_pos b e Hb). nra.
Qed.
Lemma bpow_S : forall b e, 2 <= b -> (bpow b (e + 1) == inject_Z b * bpow b e)%Q.
Proof. intros b e H. rewrite bpow_add by assumption. rewrite bpow_1. ring. Qed.
Lemma bpow_lt : forall b e f, 2 <= b -> e < f -> (bpow b e < bpow b f)%Q.
Proof.
  intros b e f Hb H. assert (H1 := bpow_le b (e + 1) f Hb ltac:(lia)). rewrite bpow_S in H1 by assumption.
  assert (H2 := bpow_pos b e Hb). assert (H3 := inject_le 2 b Hb). change (inject_Z 2) with (2 # 1)%Q in H3. nra.
Qed.
Lemma bpow_lt_inv : forall b e f, 2 <= b -> (bpow b e < bpow b f)%Q -> e < f.
Proof.
  intros b e f Hb H. destruct (Z_lt_le_dec e f) as [|Hle]; [assumption|].
  assert (H1 := bpow_le b f e Hb Hle). lra.
Qed.
Lemma bpow_le_inv : forall b e f, 2 <= b -> (bpow b e <= bpow b f)%Q -> e <= f.
Proof.
  intros b e f Hb H. destruct (Z_le_gt_dec e f) as [|Hgt]; [assumption|].
  assert (H1 := bpow_lt b f e Hb ltac:(lia)). lra.
Qed.

Lemma qv_pos : forall n d, 0 < n -> 0 < d -> (0 < qv n d)%Q.
Proof. intros n d Hn Hd. unfold qv. apply Qlt_shift_div_l; [apply inject_pos; assumption|]. rewrite Qmult_0_l. apply inject_pos. assumption. Qed.
Lemma qv_mul : forall n d, 0 < d -> (qv n d * inject_Z d == inject_Z n)%Q.
Proof. intros n d H. unfold qv. rewrite Qmult_comm. apply Qmult_div_r. apply inject_nz. assumption. Qed.
Lemma qv_le_iff : forall n d x, 0 < d -> (x <= qv n d <-> x * inject_Z d <= inject_Z n)%Q.
Proof.
  intros n d x Hd. assert (H := inject_pos d Hd). assert (Hm := qv_mul n d Hd). split; intro E.
  - apply (Qmult_le_compat_r _ _ (inject_Z d)) in E; [|lra]. rewrite Hm in E. assumption.
  - apply Qle_shift_div_l; assumption.
Qed.

(** [scale] divides by a power. *)
Lemma scale_spec : forall b e n d n' d', 2 <= b -> 0 < d -> scale b e n d = (n', d') ->
  0 < d' /\ (0 < n -> 0 < n') /\ (qv n' d' * bpow b e == qv n d)%Q.
Proof.
  intros b e n d n' d' Hb Hd H. unfold scale in H. destruct (Z.leb_spec 0 e) as [He|He]; injection H as <- <-.
  - assert (Hp : 0 < b ^ e) by (apply Z.pow_pos_nonneg; lia). split; [nia|]. split; [auto|].
    rewrite bpow_Z by assumption. unfold qv. rewrite inject_Z_mult. field. split; apply inject_nz; lia.
  - assert (Hp : 0 < b ^ (- e)) by (apply Z.pow_pos_nonneg; lia). split; [assumption|]. split; [nia|].
    assert (Ho := bpow_opp b e Hb). rewrite bpow_Z in Ho by lia. unfold qv. rewrite inject_Z_mult.
    assert (Hn := inject_nz d Hd).
    assert (E : (inject_Z n * inject_Z (b ^ (- e)) / inject_Z d * bpow b e == inject_Z n / inject_Z d * (inject_Z (b ^ (- e)) * bpow b e))%Q)
      by (field; assumption).
    rewrite E, Ho. ring.
Qed.

(** Integer logarithm. *)
Lemma ilog_aux_spec : forall b fuel n, 2 <= b -> 1 <= n < 2 ^ (Z.of_nat fuel + 1) ->
  0 <= ilog_aux b fuel n /\ b ^ (ilog_aux b fuel n) <= n < b ^ (ilog_aux b fuel n + 1).
Proof.
  intros b. induction fuel as [|f IH]; intros n Hb Hn; cbn [ilog_aux].
  - change (2 ^ (Z.of_nat 0 + 1)) with 2 in Hn. split; [lia|]. change (b ^ 0) with 1. change (0 + 1) with 1.
    rewrite Z.pow_1_r. lia.
  - destruct (Z.ltb_spec n b) as [H|H].
    + split; [lia|]. change (b ^ 0) with 1. change (0 + 1) with 1. rewrite Z.pow_1_r. lia.
    + assert (Hq : 1 <= n / b < 2 ^ (Z.of_nat f + 1)).
      { split; [apply Z.div_le_lower_bound; lia|]. rewrite Nat2Z.inj_succ in Hn.
        replace (Z.succ (Z.of_nat f) + 1) with (Z.of_nat f + 1 + 1) in Hn by lia.
        rewrite Z.pow_add_r in Hn by lia. change (2 ^ 1) with 2 in Hn.
        apply Z.div_lt_upper_bound; [lia|]. assert (0 < 2 ^ (Z.of_nat f + 1)) by (apply Z.pow_pos_nonneg; lia). nia. }
      destruct (IH _ Hb Hq) as (I1 & I2 & I3). set (k := ilog_aux b f (n / b)) in *.
      split; [lia|]. replace (1 + k) with (k + 1) by lia. rewrite !Z.pow_add_r in * by lia. rewrite Z.pow_1_r in *.
      assert (Hdm := Z.div_mod n b ltac:(lia)). assert (Hm := Z.mod_pos_bound n b ltac:(lia)).
      assert (0 < b ^ k) by (apply Z.pow_pos_nonneg; lia). nia.
Qed.
Lemma ilog_spec : forall b n, 2 <= b -> 1 <= n -> 0 <= ilog b n /\ b ^ (ilog b n) <= n < b ^ (ilog b n + 1).
Proof.
  intros b n Hb Hn. apply ilog_aux_spec; [assumption|]. split; [assumption|].
  rewrite Z2Nat.id by apply Z.log2_nonneg. apply Z.log2_spec. lia.
Qed.

Lemma flog_spec : forall b n d, 2 <= b -> 0 < n -> 0 < d ->
  (bpow b (flog b n d) <= qv n d)%Q /\ (qv n d < bpow b (flog b n d + 1))%Q.
Proof.
  intros b n d Hb Hn Hd. unfold flog.
  destruct (ilog_spec b n Hb ltac:(lia)) as (A0 & A1 & A2). destruct (ilog_spec b d Hb ltac:(lia)) as (B0 & B1 & B2).
  set (i := ilog b n) in *. set (j := ilog b d) in *.
  destruct (scale b (i - j) n d) as [n' d'] eqn:Es. destruct (scale_spec _ _ _ _ _ _ Hb Hd Es) as (Hd' & Hn' & Hv).
  specialize (Hn' Hn).
  assert (Hm := qv_mul n d Hd).
  apply inject_le in A1, B1. apply inject_lt in A2, B2. rewrite <- bpow_Z in A1, A2, B1, B2 by lia.
  assert (Pd := inject_pos d Hd). assert (Pv := qv_pos n d Hn Hd).
  assert (Hij : (bpow b i == bpow b (i - j) * bpow b j)%Q) by (rewrite <- bpow_add by assumption; replace (i - j + j) with i by lia; reflexivity).
  assert (Pij := bpow_pos b (i - j) Hb). assert (Pj := bpow_pos b j Hb). assert (Pb := inject_le 2 b Hb). change (inject_Z 2) with (2 # 1)%Q in Pb.
  rewrite bpow_S in A2, B2 by assumption. rewrite Hij in A1, A2.
  set (u := bpow b (i - j)) in *. set (w := bpow b j) in *. set (v := qv n d) in *. set (B := inject_Z b) in *.
  set (D := inject_Z d) in *. set (nn := inject_Z n) in *.
  (* v*D = n ; u*w <= n < B*u*w ; w <= D < B*w *)
  assert (Hup : (v < B * u)%Q).
  { apply Qnot_le_lt. intro H. assert (H1 : (B * u * D <= v * D)%Q) by (apply Qmult_le_compat_r; lra).
    assert (H2 : (B * u * w <= B * u * D)%Q) by (rewrite !(Qmult_comm (B * u)); apply Qmult_le_compat_r; [lra|nra]).
    rewrite Hm in H1. lra. }
  assert (Hlo : (u < B * v)%Q).
  { apply Qnot_le_lt. intro H. assert (H1 : (B * v * w <= u * w)%Q) by (apply Qmult_le_compat_r; lra).
    assert (H2 : (v * D < v * (B * w))%Q) by (rewrite !(Qmult_comm v); apply Qmult_lt_compat_r; assumption).
    rewrite Hm in H2. nra. }
  assert (Hv' := qv_mul n' d' Hd').
  destruct (Z.leb_spec d' n') as [Hc|Hc].
  - rewrite bpow_S by assumption. split; [|assumption].
    assert (1 <= qv n' d')%Q by (apply qv_le_iff; [assumption|]; rewrite Qmult_1_l; apply inject_le; assumption). fold u. nra.
  - replace (i - j - 1 + 1) with (i - j) by lia. fold u.
    assert (Hlt : (qv n' d' < 1)%Q).
    { apply Qnot_le_lt. intro H. apply qv_le_iff in H; [|assumption]. rewrite Qmult_1_l in H. apply inject_lt in Hc. lra. }
    split; [|nra].
    assert (Hu : (u == B * bpow b (i - j - 1))%Q).
    { unfold u, B. rewrite <- bpow_S by assumption. replace (i - j - 1 + 1) with (i - j) by lia. reflexivity. }
    assert (0 < bpow b (i - j - 1))%Q by (apply bpow_pos; assumption). rewrite Hu in Hlo. nra.
Qed.

Lemma flog_unique : forall b n d k, 2 <= b -> 0 < n -> 0 < d ->
  (bpow b k <= qv n d)%Q -> (qv n d < bpow b (k + 1))%Q -> flog b n d = k.
Proof.
  intros b n d k Hb Hn Hd H1 H2. destruct (flog_spec b n d Hb Hn Hd) as [H3 H4].
  assert (flog b n d < k + 1) by (apply (bpow_lt_inv b); [assumption|lra]).
  assert (k < flog b n d + 1) by (apply (bpow_lt_inv b); [assumption|lra]). lia.
Qed.

(** Rounding to the nearest integer. *)
Lemma rne_err : forall n d, 0 < d ->
  (inject_Z (rne n d) - (1 # 2) <= qv n d)%Q /\ (qv n d <= inject_Z (rne n d) + (1 # 2))%Q.
Proof.
  intros n d Hd. assert (Hv := qv_mul n d Hd). assert (Pd := inject_pos d Hd).
  assert (Hdm := Z.div_mod n d ltac:(lia)). assert (Hm := Z.mod_pos_bound n d Hd).
  assert (H : 2 * rne n d * d - d <= 2 * n <= 2 * rne n d * d + d).
  { unfold rne. destruct (Z.compare_spec (2 * (n mod d)) d); [destruct (Z.even (n / d))| |]; nia. }
  destruct H as [H1 H2]. apply inject_le in H1, H2.
  rewrite inject_Z_plus, !inject_Z_mult in H2. unfold Z.sub in H1. rewrite inject_Z_plus, inject_Z_opp, !inject_Z_mult in H1.
  change (inject_Z 2) with (2 # 1)%Q in *. rewrite <- Hv in H1, H2.
  set (v := qv n d) in *. set (D := inject_Z d) in *. set (r := inject_Z (rne n d)) in *. clearbody v D r. clear - H1 H2 Pd.
  split.
  - apply Qnot_lt_le. intro H. assert ((v * D < (r - (1 # 2)) * D)%Q) by (apply Qmult_lt_compat_r; assumption). lra.
  - apply Qnot_lt_le. intro H. assert (((r + (1 # 2)) * D < v * D)%Q) by (apply Qmult_lt_compat_r; assumption). lra.
Qed.
Lemma inject_lt_inv : forall a b, (inject_Z a < inject_Z b)%Q -> a < b.
Proof. intros a b H. rewrite Zlt_Qlt. assumption. Qed.
Lemma inject_S : forall a, (inject_Z (a + 1) == inject_Z a + 1)%Q.
Proof. intros. rewrite inject_Z_plus. reflexivity. Qed.
Lemma rne_unique : forall n d m, 0 < d ->
  (inject_Z m - (1 # 2) < qv n d)%Q -> (qv n d < inject_Z m + (1 # 2))%Q -> rne n d = m.
Proof.
  intros n d m Hd H1 H2. destruct (rne_err n d Hd) as [H3 H4].
  assert (rne n d < m + 1) by (apply inject_lt_inv; rewrite inject_S; lra).
  assert (m < rne n d + 1) by (apply inject_lt_inv; rewrite inject_S; lra). lia.
Qed.
Lemma rne_le : forall n d m, 0 < d -> (qv n d < inject_Z m + (1 # 2))%Q -> rne n d <= m.
Proof.
  intros n d m Hd H2. destruct (rne_err n d Hd) as [H3 H4].
  assert (rne n d < m + 1) by (apply inject_lt_inv; rewrite inject_S; lra). lia.
Qed.
Lemma rne_ge : forall n d m, 0 < d -> (inject_Z m - (1 # 2) < qv n d)%Q -> m <= rne n d.
Proof.
  intros n d m Hd H2. destruct (rne_err n d Hd) as [H3 H4].
  assert (m < rne n d + 1) by (apply inject_lt_inv; rewrite inject_S; lra). lia.
Qed.
