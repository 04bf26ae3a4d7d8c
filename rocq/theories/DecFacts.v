(** Decimal text of binary64 values: [%.pe] and [float()]. *)
From Verif Require Import PyBase PyNum Facts IntFacts QFacts FloatFacts.
From Coq Require Import QArith Qpower Qabs Lqa Lia.
Open Scope Z_scope.

Lemma mul_le_inv : forall a b u, (0 < u -> a * u <= b * u -> a <= b)%Q.
Proof. intros a b u Hu H. apply Qmult_le_r in H; assumption. Qed.
Lemma mul_lt_inv : forall a b u, (0 < u -> a * u < b * u -> a < b)%Q.
Proof. intros a b u Hu H. apply Qmult_lt_r in H; assumption. Qed.

(** The decimal nearest to a value with p+1 digits. *)
Lemma dec_round_spec : forall p m e q k, 0 <= p -> dec_round p m e = (q, k) ->
  10 ^ p <= q < 10 ^ (p + 1) /\
  exists k0, (bpow 10 k0 <= qm m e)%Q /\ (qm m e < bpow 10 (k0 + 1))%Q /\
    (inject_Z q * bpow 10 (k - p) - (1 # 2) * bpow 10 (k0 - p) <= qm m e)%Q /\
    (qm m e <= inject_Z q * bpow 10 (k - p) + (1 # 2) * bpow 10 (k0 - p))%Q /\
    (k = k0 \/ k = k0 + 1 /\ q = 10 ^ p) /\
    (k = k0 -> forall n d, frac_of m e = (n, d) -> forall n' d', scale 10 (k0 - p) n d = (n', d') -> q = rne n' d').
Proof.
  intros p m e q k Hp H. unfold dec_round in H. destruct (frac_of m e) as [n d] eqn:Ef.
  destruct (frac_of_spec _ _ _ _ Ef) as (Hn & Hd & Hx).
  destruct (flog_spec 10 n d ltac:(lia) Hn Hd) as [F1 F2]. set (k0 := flog 10 n d) in *.
  destruct (scale 10 (k0 - p) n d) as [n' d'] eqn:Es.
  destruct (scale_spec 10 _ _ _ _ _ ltac:(lia) Hd Es) as (Hd' & Hn' & Hv). specialize (Hn' Hn).
  destruct (rne_err n' d' Hd') as [R1 R2].
  rewrite Hx in *. set (x := qm m e) in *. set (w := qv n' d') in *. set (r := rne n' d') in *.
  assert (Pt := bpow_pos 10 (k0 - p) ltac:(lia)).
  assert (Ek : (bpow 10 k0 == inject_Z (10 ^ p) * bpow 10 (k0 - p))%Q).
  { rewrite <- bpow_Z by assumption. rewrite <- bpow_add by lia. replace (p + (k0 - p)) with k0 by lia. reflexivity. }
  assert (Ek1 : (bpow 10 (k0 + 1) == inject_Z (10 ^ (p + 1)) * bpow 10 (k0 - p))%Q).
  { rewrite <- bpow_Z by lia. rewrite <- bpow_add by lia. replace (p + 1 + (k0 - p)) with (k0 + 1) by lia. reflexivity. }
  set (t := bpow 10 (k0 - p)) in *.
  assert (Hr1 : 10 ^ p <= r).
  { apply rne_ge; [assumption|]. fold w. assert (inject_Z (10 ^ p) <= w)%Q by (apply (mul_le_inv _ _ t Pt); rewrite Hv, <- Ek; assumption). lra. }
  assert (Hr2 : r <= 10 ^ (p + 1)).
  { apply rne_le; [assumption|]. fold w. assert (w < inject_Z (10 ^ (p + 1)))%Q by (apply (mul_lt_inv _ _ t Pt); rewrite Hv, <- Ek1; assumption). lra. }
  assert (Hlo : (inject_Z r * t - (1 # 2) * t <= x)%Q).
  { rewrite <- Hv. assert ((inject_Z r - (1 # 2)) * t <= w * t)%Q by (apply Qmult_le_compat_r; lra). lra. }
  assert (Hhi : (x <= inject_Z r * t + (1 # 2) * t)%Q).
  { rewrite <- Hv. assert (w * t <= (inject_Z r + (1 # 2)) * t)%Q by (apply Qmult_le_compat_r; lra). lra. }
  destruct (Z.eqb_spec r (10 ^ (p + 1))) as [E|N]; apply pair_equal_spec in H as [<- <-].
  - split. { rewrite Z.pow_add_r by lia. assert (0 < 10 ^ p) by (apply Z.pow_pos_nonneg; lia). lia. }
    exists k0.
    assert (Eq : (inject_Z (10 ^ p) * bpow 10 (k0 + 1 - p) == inject_Z r * t)%Q).
    { rewrite E. rewrite <- Ek1. rewrite <- bpow_Z by assumption. rewrite <- bpow_add by lia.
      replace (p + (k0 + 1 - p)) with (k0 + 1) by lia. reflexivity. }
    split; [assumption|]. split; [assumption|]. rewrite Eq. split; [assumption|]. split; [assumption|].
    split; [right; split; reflexivity|]. intros Ec. lia.
  - split; [lia|]. exists k0. fold t. split; [assumption|]. split; [assumption|]. split; [assumption|]. split; [assumption|].
    split; [left; reflexivity|]. intros _ n2 d2 E2 n3 d3 E3. injection E2 as <- <-. rewrite Es in E3. injection E3 as <- <-. reflexivity.
Qed.

(** Values close to a decimal print as that decimal. *)
Lemma dec_round_near : forall p m e q k, 0 <= p -> 10 ^ p <= q < 10 ^ (p + 1) ->
  (inject_Z q * bpow 10 (k - p) - (1 # 20) * bpow 10 (k - p) < qm m e)%Q ->
  (qm m e < inject_Z q * bpow 10 (k - p) + (1 # 20) * bpow 10 (k - p))%Q ->
  dec_round p m e = (q, k).
Proof.
  intros p m e q k Hp Hq H1 H2. unfold dec_round. destruct (frac_of m e) as [n d] eqn:Ef.
  destruct (frac_of_spec _ _ _ _ Ef) as (Hn & Hd & Hx).
  set (x := qm m e) in *. assert (Pt := bpow_pos 10 (k - p) ltac:(lia)).
  assert (Ek : (bpow 10 k == inject_Z (10 ^ p) * bpow 10 (k - p))%Q).
  { rewrite <- bpow_Z by assumption. rewrite <- bpow_add by lia. replace (p + (k - p)) with k by lia. reflexivity. }
  assert (Ek1 : (bpow 10 (k + 1) == inject_Z (10 ^ (p + 1)) * bpow 10 (k - p))%Q).
  { rewrite <- bpow_Z by lia. rewrite <- bpow_add by lia. replace (p + 1 + (k - p)) with (k + 1) by lia. reflexivity. }
  set (t := bpow 10 (k - p)) in *.
  assert (Hq1 : (inject_Z q + 1 <= inject_Z (10 ^ (p + 1)))%Q) by (rewrite <- inject_S; apply inject_le; lia).
  assert (Hq0 : (inject_Z (10 ^ p) <= inject_Z q)%Q) by (apply inject_le; lia).
  assert (Hup : (x < bpow 10 (k + 1))%Q).
  { rewrite Ek1. assert ((inject_Z q + 1) * t <= inject_Z (10 ^ (p + 1)) * t)%Q by (apply Qmult_le_compat_r; lra). lra. }
  destruct (Qlt_le_dec x (bpow 10 k)) as [Hlt|Hge].
  - (* just below a power of ten *)
    assert (q = 10 ^ p).
    { apply Z.le_antisymm; [|lia]. apply Zlt_succ_le, inject_lt_inv. unfold Z.succ. rewrite inject_S.
      apply (mul_lt_inv _ _ t Pt). rewrite Ek in Hlt. lra. }
    subst q.
    assert (Et : (t == (10 # 1) * bpow 10 (k - 1 - p))%Q).
    { unfold t. replace (k - p) with (k - 1 - p + 1) by lia. rewrite bpow_S by lia. reflexivity. }
    assert (Ps := bpow_pos 10 (k - 1 - p) ltac:(lia)). 
    assert (Hfl : flog 10 n d = k - 1).
    { apply flog_unique; [lia|assumption|assumption| |]; rewrite Hx.
      - fold x. assert (Ekm : (bpow 10 k == (10 # 1) * bpow 10 (k - 1))%Q).
        { replace k with (k - 1 + 1) at 1 by lia. rewrite bpow_S by lia. reflexivity. }
        assert (P10 : (1 <= inject_Z (10 ^ p))%Q).
        { change 1%Q with (inject_Z 1). apply inject_le. assert (0 < 10 ^ p) by (apply Z.pow_pos_nonneg; lia). lia. }
        assert (1 * t <= inject_Z (10 ^ p) * t)%Q by (apply Qmult_le_compat_r; lra).
        rewrite Ekm in Ek. lra.
      - fold x. replace (k - 1 + 1) with k by lia. assumption. }
    rewrite Hfl. destruct (scale 10 (k - 1 - p) n d) as [n' d'] eqn:Es.
    destruct (scale_spec 10 _ _ _ _ _ ltac:(lia) Hd Es) as (Hd' & Hn' & Hv). rewrite Hx in Hv. fold x in Hv.
    set (s := bpow 10 (k - 1 - p)) in *.
    assert (E10 : (inject_Z (10 ^ (p + 1)) == (10 # 1) * inject_Z (10 ^ p))%Q).
    { rewrite Z.pow_add_r by lia. rewrite inject_Z_mult. change (inject_Z (10 ^ 1)) with (10 # 1)%Q. ring. }
    assert (Hr : rne n' d' = 10 ^ (p + 1)).
    { apply rne_unique; [assumption| |]; apply (mul_lt_inv _ _ s Ps); rewrite Hv, ?E10.
      - rewrite Et in H1. lra.
      - rewrite Ek, Et in Hlt. lra. }
    rewrite Hr, Z.eqb_refl. f_equal. lia.
  - assert (Hfl : flog 10 n d = k) by (apply flog_unique; [lia|assumption|assumption| |]; rewrite Hx; assumption).
    rewrite Hfl. destruct (scale 10 (k - p) n d) as [n' d'] eqn:Es.
    destruct (scale_spec 10 _ _ _ _ _ ltac:(lia) Hd Es) as (Hd' & Hn' & Hv). rewrite Hx in Hv. fold x t in Hv.
    assert (Hr : rne n' d' = q).
    { apply rne_unique; [assumption| |]; apply (mul_lt_inv _ _ t Pt); rewrite Hv; lra. }
    rewrite Hr. destruct (Z.eqb_spec q (10 ^ (p + 1))); [lia|]. reflexivity.
Qed.

Lemma float_of_dec_frac : forall s q e, 0 < q -> exists n d, 0 < n /\ 0 < d /\
  float_of_dec s q e = round64 s n d /\ (qv n d == inject_Z q * bpow 10 e)%Q.
Proof.
  intros s q e Hq. unfold float_of_dec. destruct (Z.leb_spec 0 e) as [He|He].
  - assert (0 < 10 ^ e) by (apply Z.pow_pos_nonneg; lia). exists (q * 10 ^ e), 1. split; [nia|]. split; [lia|]. split; [reflexivity|].
    rewrite bpow_Z by assumption. unfold qv. rewrite inject_Z_mult. field.
  - assert (0 < 10 ^ (- e)) by (apply Z.pow_pos_nonneg; lia). exists q, (10 ^ (- e)). split; [assumption|]. split; [assumption|]. split; [reflexivity|].
    assert (Ho := bpow_opp 10 e ltac:(lia)). rewrite bpow_Z in Ho by lia.
    assert (Hm := qv_mul q (10 ^ (- e)) ltac:(lia)). set (v := qv _ _) in *. rewrite <- Hm. rewrite <- Qmult_assoc, Ho. ring.
Qed.

(** The value read from the text with p+1 digits. *)
Definition rd (p : nat) (f : float) : float :=
  match f with
  | S754_finite s m e => let (q, k) := dec_round (Z.of_nat p) m e in float_of_dec s q (k - Z.of_nat p)
  | _ => f
  end.

(** ** 17 digits are enough *)
Theorem rd16_id : forall f, f_valid f = true -> rd 16 f = f.
Proof.
  intros [s|s| |s m e] Hv; try reflexivity. apply valid_canon in Hv. cbn [rd].
  destruct (dec_round (Z.of_nat 16) m e) as [q k] eqn:Ed. change (Z.of_nat 16) with 16 in *.
  destruct (dec_round_spec 16 m e q k ltac:(lia) Ed) as (Hq & k0 & D1 & D2 & D3 & D4 & D5 & _).
  destruct (float_of_dec_frac s q (k - 16) ltac:(lia)) as (n & d & Hn & Hd & -> & Hqv).
  assert (E16 : (bpow 10 k0 == inject_Z (10 ^ 16) * bpow 10 (k0 - 16))%Q).
  { rewrite <- bpow_Z by lia. rewrite <- bpow_add by lia. replace (16 + (k0 - 16)) with k0 by lia. reflexivity. }
  rewrite E16 in D1. change (inject_Z (10 ^ 16)) with (10000000000000000 # 1)%Q in D1.
  assert (Pt := bpow_pos 10 (k0 - 16) ltac:(lia)). set (t := bpow 10 (k0 - 16)) in *.
  assert (Hm : (inject_Z (Zpos m) < inject_Z (2 ^ 53))%Q) by (apply inject_lt; apply Hv).
  change (inject_Z (2 ^ 53)) with (9007199254740992 # 1)%Q in Hm.
  assert (Pu := bpow_pos 2 e ltac:(lia)).
  rewrite <- Hqv in D3, D4.
  assert (Hx : (qm m e < (9007199254740992 # 1) * bpow 2 e)%Q) by (unfold qm; apply Qmult_lt_compat_r; assumption).
  apply round64_near; try assumption.
  - lra.
  - lra.
  - intro Em. right. assert (Hx2 : (qm m e == (4503599627370496 # 1) * bpow 2 e)%Q) by (unfold qm; rewrite Em; reflexivity).
    rewrite Hx2 in *. lra.
Qed.

(** ** No overflow *)
(** Largest finite value, and the largest p+1 digit decimal not above it. *)
Definition max_dec (p : Z) (M : Z) : bool :=
  (M * 10 ^ (308 - p) <=? (2 ^ 53 - 1) * 2 ^ 971) && ((2 ^ 53 - 1) * 2 ^ 971 * 2 <? (2 * M + 1) * 10 ^ (308 - p)) && (10 ^ p <=? M).
Definition short (p : nat) : Prop := (p <= 13)%nat /\ exists M, max_dec (Z.of_nat p) M = true.
Lemma short5 : short 5.
Proof. split; [lia|]. exists 179769. vm_compute. reflexivity. Qed.
Lemma short7 : short 7.
Proof. split; [lia|]. exists 17976931. vm_compute. reflexivity. Qed.
Lemma short11 : short 11.
Proof. split; [lia|]. exists 179769313486. vm_compute. reflexivity. Qed.

Definition q_max : Q := inject_Z ((2 ^ 53 - 1) * 2 ^ 971).
Lemma q_max_lt : (q_max < bpow 2 1024 - (1 # 2) * bpow 2 971)%Q.
Proof. vm_compute. reflexivity. Qed.
Lemma qm_max : forall m e, canon m e -> (qm m e <= q_max)%Q.
Proof.
  intros m e (H1 & H2 & _). unfold q_max, qm. rewrite inject_Z_mult. rewrite <- (bpow_Z 2 971) by lia.
  assert (bpow 2 e <= bpow 2 971)%Q by (apply bpow_le; lia). assert (P := bpow_pos 2 e ltac:(lia)).
  assert (inject_Z (Zpos m) <= inject_Z (2 ^ 53 - 1))%Q by (apply inject_le; lia).
  assert (0 < inject_Z (Zpos m))%Q by (apply inject_pos; lia).
  apply Qle_trans with (inject_Z (2 ^ 53 - 1) * bpow 2 e)%Q; [apply Qmult_le_compat_r; lra|].
  rewrite !(Qmult_comm (inject_Z (2 ^ 53 - 1))). apply Qmult_le_compat_r; lra.
Qed.

Lemma dec_le_max : forall p m e q k, (exists M, max_dec (Z.of_nat p) M = true) -> (p <= 13)%nat -> canon m e ->
  dec_round (Z.of_nat p) m e = (q, k) -> (inject_Z q * bpow 10 (k - Z.of_nat p) <= q_max)%Q.
Proof.
  intros p m e q k [M HM] Hp13 Hc Hd. unfold max_dec in HM. apply andb_true_iff in HM as [HM HM3]. apply andb_true_iff in HM as [HM1 HM2].
  apply Z.leb_le in HM1, HM3. apply Z.ltb_lt in HM2.
  set (P := Z.of_nat p) in *. assert (HP : 0 <= P <= 13) by (unfold P; lia).
  destruct (dec_round_spec P m e q k ltac:(lia) Hd) as (Hq & k0 & D1 & D2 & D3 & D4 & D5 & D6).
  assert (Hx := qm_max m e Hc).
  assert (Hk308 : k0 <= 308).
  { assert (k0 < 309); [|lia]. apply (bpow_lt_inv 10); [lia|]. eapply Qle_lt_trans; [apply D1|]. eapply Qle_lt_trans; [apply Hx|].
    vm_compute. reflexivity. }
  assert (Hbig : (bpow 10 308 <= q_max)%Q) by (vm_compute; discriminate).
  assert (Hval : forall kk, (inject_Z (10 ^ P) * bpow 10 (kk - P) == bpow 10 kk)%Q).
  { intro kk. rewrite <- bpow_Z by lia. rewrite <- bpow_add by lia. replace (P + (kk - P)) with kk by lia. reflexivity. }
  assert (P8 := bpow_pos 10 (308 - P) ltac:(lia)).
  assert (Hx2 : (qm m e < (inject_Z M + (1 # 2)) * bpow 10 (308 - P))%Q).
  { eapply Qle_lt_trans; [apply Hx|]. unfold q_max. apply inject_lt in HM2. rewrite (bpow_Z 10 (308 - P)) by lia.
    rewrite !inject_Z_mult in HM2. rewrite inject_S, inject_Z_mult in HM2. rewrite inject_Z_mult.
    change (inject_Z 2) with (2 # 1)%Q in HM2.
    set (A := inject_Z (2 ^ 53 - 1)) in *. set (B := inject_Z (2 ^ 971)) in *. set (C := inject_Z (10 ^ (308 - P))) in *.
    clearbody A B C. lra. }
  destruct (Z_le_gt_dec k0 307) as [Hk|Hk].
  - (* below 1e308 *)
    apply Qle_trans with (bpow 10 308); [|assumption].
    destruct D5 as [->|[-> ->]].
    + assert (Hq1 : (inject_Z q <= inject_Z (10 ^ (P + 1)))%Q) by (apply inject_le; lia).
      assert (Pk := bpow_pos 10 (k0 - P) ltac:(lia)).
      apply Qle_trans with (inject_Z (10 ^ (P + 1)) * bpow 10 (k0 - P))%Q; [apply Qmult_le_compat_r; lra|].
      rewrite <- bpow_Z by lia. rewrite <- bpow_add by lia. apply bpow_le; lia.
    + rewrite Hval. apply bpow_le; lia.
  - assert (k0 = 308) by lia. subst k0. destruct D5 as [->|[-> ->]].
    + (* the digits are at most M *)
      destruct (frac_of m e) as [n d] eqn:Ef. destruct (frac_of_spec _ _ _ _ Ef) as (Hn & Hdd & Hfx).
      destruct (scale 10 (308 - P) n d) as [n' d'] eqn:Es.
      destruct (scale_spec 10 _ _ _ _ _ ltac:(lia) Hdd Es) as (Hd' & Hn' & Hv).
      rewrite Hfx in Hv.
      assert (q <= M).
      { rewrite (D6 eq_refl _ _ eq_refl _ _ Es). apply rne_le; [assumption|]. apply (mul_lt_inv _ _ (bpow 10 (308 - P)) P8).
        rewrite Hv. assumption. }
      unfold q_max. apply inject_le in HM1. rewrite inject_Z_mult, <- bpow_Z in HM1 by lia.
      eapply Qle_trans; [|apply HM1]. apply Qmult_le_compat_r; [apply inject_le; assumption|lra].
    + (* would be 1e309 *)
      exfalso. (* x >= 1e309 - 0.5*10^(308-P), impossible *)
      replace (308 + 1) with 309 in * by lia. rewrite Hval in D3.
      assert (H309 : (bpow 10 309 == inject_Z (10 ^ (P + 1)) * bpow 10 (308 - P))%Q).
      { rewrite <- bpow_Z by lia. rewrite <- bpow_add by lia. replace (P + 1 + (308 - P)) with 309 by lia. reflexivity. }
      assert (Hs : (bpow 10 (308 - P) <= bpow 10 308)%Q) by (apply bpow_le; lia).
      assert (H8 : (q_max < bpow 10 309 - bpow 10 308)%Q) by (vm_compute; reflexivity). lra.
Qed.

(** ** Reading back what was printed with few digits *)
Definition normal (m : positive) : Prop := 2 ^ 52 <= Zpos m.

Lemma rd_facts : forall p s m e, short p -> canon m e ->
  let y := rd p (S754_finite s m e) in
  f_finite y = true /\ f_valid y = true /\ fsign y = s /\
  (normal m ->
     (fmag y - qm m e <= (51 # 100) * bpow 10 (- Z.of_nat p) * qm m e)%Q /\
     (qm m e - fmag y <= (51 # 100) * bpow 10 (- Z.of_nat p) * qm m e)%Q /\
     exists m' e', y = S754_finite s m' e' /\ dec_round (Z.of_nat p) m' e' = dec_round (Z.of_nat p) m e).
Proof.
  intros p s m e [Hp13 Hmax] Hc. cbn zeta. cbn [rd].
  destruct (dec_round (Z.of_nat p) m e) as [q k] eqn:Ed.
  assert (Hle := dec_le_max p m e q k Hmax Hp13 Hc Ed).
  set (P := Z.of_nat p) in *. assert (HP : 0 <= P <= 13) by (unfold P; lia).
  destruct (dec_round_spec P m e q k ltac:(lia) Ed) as (Hq & k0 & D1 & D2 & D3 & D4 & D5 & _).
  assert (Hqpos : 0 < q) by (assert (0 < 10 ^ P) by (apply Z.pow_pos_nonneg; lia); lia).
  destruct (float_of_dec_frac s q (k - P) Hqpos) as (n & d & Hn & Hd & -> & Hqv).
  rewrite <- Hqv in D3, D4, Hle. set (v := qv n d) in *.
  destruct (round64_err s n d Hn Hd) as (R1 & R2 & R3 & R4 & R5).
  { eapply Qle_lt_trans; [apply Hle|apply q_max_lt]. }
  split; [assumption|]. split; [assumption|]. split; [assumption|]. intro Hnorm.
  fold v in R4, R5. set (y := round64 s n d) in *. set (x := qm m e) in *.
  destruct Hc as (C1 & C2 & C3).
  assert (Hx : (bpow 2 (-1022) <= x)%Q).
  { unfold x, qm. assert (E : (bpow 2 (-1022) == inject_Z (2 ^ 52) * bpow 2 (-1074))%Q).
    { rewrite <- bpow_Z by lia. rewrite <- bpow_add by lia. reflexivity. }
    rewrite E. assert (inject_Z (2 ^ 52) <= inject_Z (Zpos m))%Q by (apply inject_le; assumption).
    assert (bpow 2 (-1074) <= bpow 2 e)%Q by (apply bpow_le; unfold emin in C2; lia).
    assert (P1 := bpow_pos 2 (-1074) ltac:(lia)). assert (P2 := inject_pos (Zpos m) ltac:(lia)).
    apply Qle_trans with (inject_Z (Zpos m) * bpow 2 (-1074))%Q; [apply Qmult_le_compat_r; lra|].
    rewrite !(Qmult_comm (inject_Z (Zpos m))). apply Qmult_le_compat_r; lra. }
  (* decimal side *)
  assert (T0 : (bpow 10 k0 == inject_Z (10 ^ P) * bpow 10 (k0 - P))%Q).
  { rewrite <- bpow_Z by lia. rewrite <- bpow_add by lia. replace (P + (k0 - P)) with k0 by lia. reflexivity. }
  assert (Pt0 := bpow_pos 10 (k0 - P) ltac:(lia)). assert (Pt := bpow_pos 10 (k - P) ltac:(lia)).
  assert (P10 : (1 <= inject_Z (10 ^ P))%Q).
  { change 1%Q with (inject_Z 1). apply inject_le. assert (0 < 10 ^ P) by (apply Z.pow_pos_nonneg; lia). lia. }
  assert (Px := qm_pos m e). fold x in Px.
  assert (Ht0 : (bpow 10 (k0 - P) <= x)%Q).
  { assert (1 * bpow 10 (k0 - P) <= inject_Z (10 ^ P) * bpow 10 (k0 - P))%Q by (apply Qmult_le_compat_r; lra). lra. }
  set (ip := bpow 10 (- P)) in *. assert (Pip : (0 < ip)%Q) by (apply bpow_pos; lia).
  assert (Ht0' : (bpow 10 (k0 - P) <= ip * x)%Q).
  { assert (E : (bpow 10 (k0 - P) == ip * bpow 10 k0)%Q).
    { unfold ip. rewrite <- bpow_add by lia. replace (- P + k0) with (k0 - P) by lia. reflexivity. }
    rewrite E. rewrite !(Qmult_comm ip). apply Qmult_le_compat_r; lra. }
  (* binary side *)
  assert (Hru : (bpow 2 (rexp n d) <= (3 # 2) * bpow 2 (-52) * x)%Q).
  { unfold rexp. assert (P52 := bpow_pos 2 (-52) ltac:(lia)).
    destruct (Z.max_spec (flog 2 n d - 52) emin) as [[_ ->]|[_ ->]].
    - assert (E : (bpow 2 emin == bpow 2 (-52) * bpow 2 (-1022))%Q) by (rewrite <- bpow_add by lia; reflexivity).
      rewrite E. assert (bpow 2 (-1022) * bpow 2 (-52) <= x * bpow 2 (-52))%Q by (apply Qmult_le_compat_r; lra).
      assert (0 < x * bpow 2 (-52))%Q by nra. lra.
    - destruct (flog_spec 2 n d ltac:(lia) Hn Hd) as [F1 _]. fold v in F1.
      replace (flog 2 n d - 52) with (flog 2 n d + -52) by lia. rewrite bpow_add by lia.
      assert (bpow 2 (flog 2 n d) * bpow 2 (-52) <= ((3 # 2) * x) * bpow 2 (-52))%Q by (apply Qmult_le_compat_r; lra). lra. }
  assert (E52 : (bpow 2 (-52) == 1 # 4503599627370496)%Q) by reflexivity. rewrite E52 in Hru.
  set (u := bpow 2 (rexp n d)) in *. assert (Pu : (0 < u)%Q) by (apply bpow_pos; lia).
  assert (Hip : ((1 # 10000000000000) <= ip)%Q).
  { unfold ip. change (1 # 10000000000000)%Q with (bpow 10 (-13)). apply bpow_le; lia. }
  assert (Hipx : ((1 # 10000000000000) * x <= ip * x)%Q) by (apply Qmult_le_compat_r; lra).
  split; [|split].
  - lra.
  - lra.
  - (* x < 10^(k+1), so t > x * 10^-(P+1) *)
    assert (Htx : (x <= (21 # 1) * inject_Z (10 ^ P) * bpow 10 (k - P))%Q).
    { assert (E : (bpow 10 (k + 1) == (10 # 1) * inject_Z (10 ^ P) * bpow 10 (k - P))%Q).
      { rewrite <- (bpow_Z 10 P) by lia. rewrite <- Qmult_assoc. rewrite <- (bpow_add 10 P) by lia. rewrite bpow_S by lia.
        replace (P + (k - P)) with k by lia. reflexivity. }
      assert (bpow 10 (k0 + 1) <= bpow 10 (k + 1))%Q by (apply bpow_le; lia).
      assert (0 < inject_Z (10 ^ P) * bpow 10 (k - P))%Q by nra. lra. }
    set (t := bpow 10 (k - P)) in *.
    assert (H13 : (inject_Z (10 ^ P) <= 10000000000000 # 1)%Q).
    { change (10000000000000 # 1)%Q with (inject_Z (10 ^ 13)). apply inject_le. apply Z.pow_le_mono_r; lia. }
    assert (Htx2 : (x <= (210000000000000 # 1) * t)%Q).
    { assert (inject_Z (10 ^ P) * t <= (10000000000000 # 1) * t)%Q by (apply Qmult_le_compat_r; lra). lra. }
    assert (Hut : (u < (1 # 10) * t)%Q) by lra.
    destruct y as [|sy| |sy my ey] eqn:Ey; try discriminate R1.
    + exfalso. cbn [fmag] in R4, R5. assert (1 * t <= inject_Z q * t)%Q.
      { apply Qmult_le_compat_r; [|lra]. change 1%Q with (inject_Z 1). apply inject_le. lia. }
      lra.
    + cbn [fsign] in R3. subst sy. exists my, ey. split; [reflexivity|].
      cbn [fmag] in R4, R5. apply dec_round_near; try lia; fold t; lra.
Qed.
