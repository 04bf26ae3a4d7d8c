(** binary64 values and their decimal text: rounding in both directions. *)
From Verif Require Import PyBase PyNum Facts IntFacts QFacts.
From Coq Require Import QArith Qpower Qabs Lqa Lia.
Open Scope Z_scope.

Definition qm (m : positive) (e : Z) : Q := (inject_Z (Zpos m) * bpow 2 e)%Q.

Lemma digits2_bound : forall m, 2 ^ (Zpos (digits2_pos m) - 1) <= Zpos m < 2 ^ Zpos (digits2_pos m).
Proof.
  induction m as [m IH|m IH|]; cbn [digits2_pos]; [| |cbn; lia];
    rewrite Pos2Z.inj_succ; replace (Z.succ (Zpos (digits2_pos m))) with (Zpos (digits2_pos m) - 1 + 1 + 1) by lia;
    set (k := Zpos (digits2_pos m)) in *; assert (Hk : 0 < k) by (unfold k; lia);
    replace (k - 1 + 1 + 1 - 1) with (k - 1 + 1) by lia;
    replace (2 ^ k) with (2 ^ (k - 1) * 2) in IH by (replace k with (k - 1 + 1) at 2 by lia; rewrite Z.pow_add_r by lia; reflexivity);
    rewrite !Z.pow_add_r by lia; change (2 ^ 1) with 2; lia.
Qed.

(** A finite binary64 value: the canonical mantissas and exponents. *)
Definition canon (m : positive) (e : Z) : Prop :=
  Zpos m < 2 ^ 53 /\ emin <= e <= 971 /\ (2 ^ 52 <= Zpos m \/ e = emin).

Lemma valid_canon : forall s m e, f_valid (S754_finite s m e) = true <-> canon m e.
Proof.
  intros s m e. unfold f_valid, valid_binary, bounded, canonical_mantissa, fexp, SpecFloat.emin, canon, emin, prec, emax.
  rewrite andb_true_iff. rewrite Z.leb_le. rewrite <- Zeq_is_eq_bool.
  assert (Hb := digits2_bound m). set (k := Zpos (digits2_pos m)) in *. assert (Hk : 0 < k) by (unfold k; lia).
  assert (Hlow : 53 < k -> 2 ^ 53 <= Zpos m).
  { intro H. etransitivity; [|apply Hb]. apply Z.pow_le_mono_r; lia. }
  assert (Hhigh : k <= 53 -> Zpos m < 2 ^ 53).
  { intro H. eapply Z.lt_le_trans; [apply Hb|]. apply Z.pow_le_mono_r; lia. }
  assert (Hh2 : k <= 52 -> Zpos m < 2 ^ 52).
  { intro H. eapply Z.lt_le_trans; [apply Hb|]. apply Z.pow_le_mono_r; lia. }
  assert (Hl2 : 52 < k -> 2 ^ 52 <= Zpos m).
  { intro H. etransitivity; [|apply Hb]. apply Z.pow_le_mono_r; lia. }
  change (3 - 1024 - 53) with (-1074). change (1024 - 53) with 971.
  change (2 ^ 53) with 9007199254740992 in *. change (2 ^ 52) with 4503599627370496 in *.
  destruct (Z_le_gt_dec k 52), (Z_le_gt_dec k 53);
    repeat match goal with H : _ -> _ |- _ => specialize (H ltac:(lia)) || clear H end; lia.
Qed.

Lemma frac_of_spec : forall m e n d, frac_of m e = (n, d) -> 0 < n /\ 0 < d /\ (qv n d == qm m e)%Q.
Proof.
  intros m e n d H. unfold frac_of in H. unfold qm. destruct (Z.leb_spec 0 e) as [He|He]; apply pair_equal_spec in H as [<- <-].
  - assert (0 < 2 ^ e) by (apply Z.pow_pos_nonneg; lia). split; [apply Z.mul_pos_pos; lia|]. split; [lia|].
    rewrite bpow_Z by assumption. unfold qv. rewrite inject_Z_mult. field.
  - assert (0 < 2 ^ (- e)) by (apply Z.pow_pos_nonneg; lia). split; [lia|]. split; [lia|].
    assert (Ho := bpow_opp 2 e ltac:(lia)). rewrite bpow_Z in Ho by lia.
    assert (Hm := qv_mul (Zpos m) (2 ^ (- e)) ltac:(lia)). set (v := qv _ _) in *. rewrite <- Hm.
    rewrite <- Qmult_assoc. rewrite Ho. ring.
Qed.

Lemma qm_pos : forall m e, (0 < qm m e)%Q.
Proof. intros m e. unfold qm. assert (H := bpow_pos 2 e ltac:(lia)). assert (H1 := inject_pos (Zpos m) ltac:(lia)). nra. Qed.

(** The exponent chosen for a value. *)
Definition rexp (n d : Z) : Z := Z.max (flog 2 n d - 52) emin.

Lemma i2 : forall a b, (inject_Z (a - b) == inject_Z a - inject_Z b)%Q.
Proof. intros. unfold Z.sub. rewrite inject_Z_plus, inject_Z_opp. reflexivity. Qed.

(** Values close enough to a binary64 value are rounded to it. *)
Lemma round64_near : forall s n d m e, 0 < n -> 0 < d -> canon m e ->
  (qm m e - (1 # 2) * bpow 2 e < qv n d)%Q -> (qv n d < qm m e + (1 # 2) * bpow 2 e)%Q ->
  (Zpos m = 2 ^ 52 -> e = emin \/ (qm m e - (1 # 4) * bpow 2 e < qv n d)%Q) ->
  round64 s n d = S754_finite s m e.
Proof.
  intros s n d m e Hn Hd (Hm & He & Hc) Hlo Hhi Hq. unfold round64.
  destruct (Z.eqb_spec n 0); [lia|].
  destruct (flog_spec 2 n d ltac:(lia) Hn Hd) as [F1 F2].
  assert (Pe := bpow_pos 2 e ltac:(lia)).
  assert (Hm1 : (inject_Z (Zpos m) + 1 <= inject_Z (2 ^ 53))%Q) by (rewrite <- inject_S; apply inject_le; lia).
  assert (E53 : (bpow 2 (e + 53) == inject_Z (2 ^ 53) * bpow 2 e)%Q).
  { rewrite bpow_add by lia. rewrite (bpow_Z 2 53) by lia. ring. }
  assert (E52 : (bpow 2 (e + 52) == inject_Z (2 ^ 52) * bpow 2 e)%Q).
  { rewrite bpow_add by lia. rewrite (bpow_Z 2 52) by lia. ring. }
  unfold qm in *. set (M := inject_Z (Zpos m)) in *. set (u := bpow 2 e) in *. set (v := qv n d) in *.
  assert (Hv53 : (v < bpow 2 (e + 53))%Q) by (rewrite E53; nra).
  assert (Hf : flog 2 n d < e + 53) by (apply (bpow_lt_inv 2); [lia|fold v in F1; lra]).
  destruct (Z.eq_dec (Z.max (flog 2 n d - 52) emin) e) as [Ee|Ene].
  - rewrite Ee. destruct (scale 2 e n d) as [n' d'] eqn:Es.
    destruct (scale_spec 2 _ _ _ _ _ ltac:(lia) Hd Es) as (Hd' & Hn' & Hv). fold u v in Hv.
    assert (Hr : rne n' d' = Zpos m).
    { apply rne_unique; [assumption| |]; fold M; set (w := qv n' d') in *.
      - apply Qnot_le_lt. intro H. assert (w * u <= (M - (1 # 2)) * u)%Q by (apply Qmult_le_compat_r; lra). lra.
      - apply Qnot_le_lt. intro H. assert ((M + (1 # 2)) * u <= w * u)%Q by (apply Qmult_le_compat_r; lra). lra. }
    rewrite Hr. destruct (Z.eqb_spec (Zpos m) (2 ^ 53)); [lia|]. destruct (Z.ltb_spec 971 e); [lia|]. reflexivity.
  - (* below a power of two *)
    assert (Hlt : flog 2 n d < e + 52) by lia. assert (Hne : emin < e) by lia.
    destruct Hc as [Hc|Hc]; [|lia].
    assert (Hv52 : (v < bpow 2 (e + 52))%Q).
    { eapply Qlt_le_trans; [apply F2|]. apply bpow_le; lia. }
    assert (Zpos m = 2 ^ 52).
    { apply Z.le_antisymm; [|assumption]. apply Zlt_succ_le, inject_lt_inv. unfold Z.succ. rewrite inject_S. fold M.
      apply Qnot_le_lt. intro H. rewrite E52 in Hv52. nra. }
    destruct (Hq H) as [|Hq']; [lia|].
    assert (Hflog : flog 2 n d = e + 51).
    { apply flog_unique; [lia|assumption|assumption| |].
      - fold v. assert (E51 : (bpow 2 (e + 52) == (2 # 1) * bpow 2 (e + 51))%Q).
        { replace (e + 52) with (e + 51 + 1) by lia. rewrite bpow_S by lia. reflexivity. }
        assert (HM : (M == inject_Z (2 ^ 52))%Q) by (unfold M; rewrite H; reflexivity).
        rewrite HM in Hq'. rewrite E52 in E51. change (inject_Z (2 ^ 52)) with (4503599627370496 # 1)%Q in *.
        lra.
      - replace (e + 51 + 1) with (e + 52) by lia. assumption. }
    rewrite Hflog. replace (Z.max (e + 51 - 52) emin) with (e - 1) by lia.
    destruct (scale 2 (e - 1) n d) as [n' d'] eqn:Es.
    destruct (scale_spec 2 _ _ _ _ _ ltac:(lia) Hd Es) as (Hd' & Hn' & Hv). fold v in Hv.
    assert (Eu : (u == (2 # 1) * bpow 2 (e - 1))%Q).
    { unfold u. replace e with (e - 1 + 1) at 1 by lia. rewrite bpow_S by lia. reflexivity. }
    assert (Pt := bpow_pos 2 (e - 1) ltac:(lia)). set (t := bpow 2 (e - 1)) in *.
    assert (HM : (M == inject_Z (2 ^ 52))%Q) by (unfold M; rewrite H; reflexivity).
    rewrite HM in Hq'. rewrite E52 in Hv52.
    assert (Hr : rne n' d' = 2 ^ 53).
    { apply rne_unique; [assumption| |]; set (w := qv n' d') in *;
        change (inject_Z (2 ^ 52)) with (4503599627370496 # 1)%Q in *; change (inject_Z (2 ^ 53)) with (9007199254740992 # 1)%Q.
      - apply Qnot_le_lt. intro Hx. assert (w * t <= ((9007199254740992 # 1) - (1 # 2)) * t)%Q by (apply Qmult_le_compat_r; lra). lra.
      - apply Qnot_le_lt. intro Hx. assert (((9007199254740992 # 1) + (1 # 2)) * t <= w * t)%Q by (apply Qmult_le_compat_r; lra). lra. }
    rewrite Hr. rewrite Z.eqb_refl. replace (e - 1 + 1) with e by lia. destruct (Z.ltb_spec 971 e); [lia|].
    assert (m = (2 ^ 52)%positive) by (apply Pos2Z.inj; rewrite H; reflexivity). subst m. reflexivity.
Qed.

(** Magnitude of a finite value. *)
Definition fmag (f : float) : Q :=
  match f with S754_finite _ m e => qm m e | _ => 0%Q end.
Definition fsign (f : float) : bool :=
  match f with S754_finite s _ _ | S754_zero s | S754_infinity s => s | S754_nan => false end.

(** General error bound: half a unit of the chosen exponent. *)
Lemma round64_err : forall s n d, 0 < n -> 0 < d -> (qv n d < bpow 2 1024 - (1 # 2) * bpow 2 971)%Q ->
  f_finite (round64 s n d) = true /\ f_valid (round64 s n d) = true /\ fsign (round64 s n d) = s /\
  (fmag (round64 s n d) - (1 # 2) * bpow 2 (rexp n d) <= qv n d)%Q /\
  (qv n d <= fmag (round64 s n d) + (1 # 2) * bpow 2 (rexp n d))%Q.
Proof.
  intros s n d Hn Hd Hmax. unfold round64. destruct (Z.eqb_spec n 0); [lia|].
  fold (rexp n d). set (e := rexp n d).
  destruct (flog_spec 2 n d ltac:(lia) Hn Hd) as [F1 F2].
  assert (Pe := bpow_pos 2 e ltac:(lia)).
  destruct (scale 2 e n d) as [n' d'] eqn:Es.
  destruct (scale_spec 2 _ _ _ _ _ ltac:(lia) Hd Es) as (Hd' & Hn' & Hv). specialize (Hn' Hn).
  destruct (rne_err n' d' Hd') as [R1 R2].
  set (q := rne n' d') in *. set (w := qv n' d') in *. set (v := qv n d) in *. set (u := bpow 2 e) in *.
  assert (Hw1 : ((inject_Z q - (1 # 2)) * u <= v)%Q) by (rewrite <- Hv; apply Qmult_le_compat_r; lra).
  assert (Hw2 : (v <= (inject_Z q + (1 # 2)) * u)%Q) by (rewrite <- Hv; apply Qmult_le_compat_r; lra).
  assert (He : emin <= e /\ flog 2 n d - 52 <= e /\ (e = flog 2 n d - 52 \/ e = emin)) by (unfold e, rexp; lia).
  destruct He as (He1 & He2 & He3).
  assert (Hf : flog 2 n d <= 1023).
  { assert (flog 2 n d < 1024); [|lia]. apply (bpow_lt_inv 2); [lia|]. fold v in F1. assert (P := bpow_pos 2 971 ltac:(lia)). lra. }
  assert (He4 : e <= 971) by (unfold emin in *; lia).
  assert (E53 : (bpow 2 (e + 53) == inject_Z (2 ^ 53) * u)%Q).
  { unfold u. rewrite bpow_add by lia. rewrite (bpow_Z 2 53) by lia. ring. }
  assert (E52 : (bpow 2 (e + 52) == inject_Z (2 ^ 52) * u)%Q).
  { unfold u. rewrite bpow_add by lia. rewrite (bpow_Z 2 52) by lia. ring. }
  assert (Hq1 : q <= 2 ^ 53).
  { apply rne_le; [assumption|]. fold w. apply Qnot_le_lt. intro H.
    assert (H1 : (inject_Z (2 ^ 53) * u <= w * u)%Q) by (apply Qmult_le_compat_r; lra).
    rewrite Hv, <- E53 in H1. assert (bpow 2 (flog 2 n d + 1) <= bpow 2 (e + 53))%Q by (apply bpow_le; lia). fold v in F2. lra. }
  assert (Hq0 : 0 <= q).
  { apply rne_ge; [assumption|]. fold w. assert (0 < w)%Q by (apply qv_pos; assumption). change (inject_Z 0) with 0%Q. lra. }
  assert (Hq2 : e <> emin -> 2 ^ 52 <= q).
  { intro Hne. apply rne_ge; [assumption|]. fold w. apply Qnot_le_lt. intro H.
    assert (H1 : (w * u <= (inject_Z (2 ^ 52) - (1 # 2)) * u)%Q) by (apply Qmult_le_compat_r; lra).
    assert (Hfe : flog 2 n d = e + 52) by (destruct He3; [lia|contradiction]).
    rewrite Hfe in F1. fold v in F1. rewrite E52 in F1. lra. }
  destruct (Z.eqb_spec q (2 ^ 53)) as [Eq|Nq].
  - assert (Hlt : e + 1 <= 971).
    { destruct (Z.eq_dec e 971) as [E|E]; [|lia]. exfalso.
      rewrite Eq in Hw1. assert (E1024 : (bpow 2 1024 == inject_Z (2 ^ 53) * u)%Q) by (rewrite <- E53, E; reflexivity).
      assert (Eu : (bpow 2 971 == u)%Q) by (unfold u; rewrite E; reflexivity).
      rewrite E1024, Eu in Hmax. lra. }
    destruct (Z.ltb_spec 971 (e + 1)); [lia|]. change (2 ^ 52) with (Zpos (2 ^ 52)%positive). cbv iota beta.
    split; [reflexivity|]. split. { apply valid_canon. unfold canon. unfold emin in *. split; [reflexivity|]. split; [lia|]. left. reflexivity. }
    split; [reflexivity|]. cbn [fmag]. unfold qm.
    assert (Eq2 : (inject_Z (Zpos (2 ^ 52)) * bpow 2 (e + 1) == inject_Z q * u)%Q).
    { rewrite bpow_S by lia. fold u. rewrite Eq. change (inject_Z (2 ^ 53)) with (inject_Z (Zpos (2 ^ 52)) * inject_Z 2)%Q. ring. }
    rewrite Eq2. split; lra.
  - destruct (Z.ltb_spec 971 e); [lia|].
    destruct q as [|m|m] eqn:Eqq.
    + split; [reflexivity|]. split; [reflexivity|]. split; [reflexivity|]. cbn [fmag]. change (inject_Z 0) with 0%Q in *.
      split; lra.
    + split; [reflexivity|]. split. { apply valid_canon. unfold canon, emin in *. split; [lia|]. split; [lia|].
        destruct (Z.eq_dec e (-1074)); [right; assumption|left; auto]. }
      split; [reflexivity|]. cbn [fmag]. unfold qm. fold u. split; lra.
    + lia.
Qed.
