(** Exact conversions: integers to floats, and the binary form of doubles. *)
From Verif Require Import PyBase PyNum Facts IntFacts QFacts FloatFacts.
From Coq Require Import QArith Qpower Qabs Lqa Lia.
Open Scope Z_scope.

Lemma round64_exact : forall s n d m e, 0 < n -> 0 < d -> canon m e -> (qv n d == qm m e)%Q ->
  round64 s n d = S754_finite s m e.
Proof.
  intros s n d m e Hn Hd Hc Hv. assert (P := bpow_pos 2 e ltac:(lia)).
  apply round64_near; try assumption; rewrite ?Hv; try (intros _; right); lra.
Qed.

Lemma int_canon : forall n, 0 < n < 2 ^ 53 -> exists m e, canon m e /\ (qm m e == inject_Z n)%Q /\ e <= 0.
Proof.
  intros n [Hn Hlt]. destruct (Z.log2_spec n Hn) as [L1 L2]. assert (L0 := Z.log2_nonneg n).
  set (l := Z.log2 n) in *. unfold Z.succ in L2.
  assert (Hl : l <= 52).
  { assert (l < 53); [|lia]. apply (Z.pow_lt_mono_r_iff 2); [lia|lia|]. lia. }
  assert (Hp : 0 < 2 ^ (52 - l)) by (apply Z.pow_pos_nonneg; lia).
  assert (E52 : 2 ^ l * 2 ^ (52 - l) = 2 ^ 52) by (rewrite <- Z.pow_add_r by lia; f_equal; lia).
  assert (E53 : 2 ^ (l + 1) * 2 ^ (52 - l) = 2 ^ 53) by (rewrite <- Z.pow_add_r by lia; f_equal; lia).
  destruct (n * 2 ^ (52 - l)) as [|m|m] eqn:Em; [nia| |nia].
  exists m, (l - 52). split; [|split; [|lia]].
  - unfold canon, emin. rewrite <- Em. split; [nia|]. split; [lia|]. left. nia.
  - unfold qm. rewrite <- Em. rewrite inject_Z_mult. rewrite <- bpow_Z by lia. rewrite <- Qmult_assoc. rewrite <- bpow_add by lia.
    replace (52 - l + (l - 52)) with 0 by lia. rewrite bpow_0. ring.
Qed.

Lemma float_of_Z_exact : forall z, Z.abs z < 2 ^ 53 -> z <> 0 ->
  exists m e, float_of_Z z = S754_finite (z <? 0) m e /\ canon m e /\ (qm m e == inject_Z (Z.abs z))%Q /\ e <= 0.
Proof.
  intros z Hz Hnz. destruct (int_canon (Z.abs z) ltac:(lia)) as (m & e & Hc & Hq & He).
  exists m, e. split; [|auto]. unfold float_of_Z. apply round64_exact; try lia; try assumption.
  rewrite Hq. unfold qv. field.
Qed.
Lemma py_float_of_int_ok : forall z, Z.abs z < 2 ^ 53 -> py_float_of_int z = Ok (float_of_Z z).
Proof.
  intros z Hz. unfold py_float_of_int. destruct (Z.eq_dec z 0) as [->|Hnz]; [reflexivity|].
  destruct (float_of_Z_exact z Hz Hnz) as (m & e & -> & _). reflexivity.
Qed.
Lemma float_of_Z_valid : forall z, Z.abs z < 2 ^ 53 -> f_valid (float_of_Z z) = true.
Proof.
  intros z Hz. destruct (Z.eq_dec z 0) as [->|Hnz]; [reflexivity|].
  destruct (float_of_Z_exact z Hz Hnz) as (m & e & -> & Hc & _). apply valid_canon. assumption.
Qed.

Lemma qv_eq_Z : forall n d z, 0 < d -> (qv n d == inject_Z z)%Q -> n = z * d.
Proof.
  intros n d z Hd H. assert (Hm := qv_mul n d Hd). rewrite H in Hm. rewrite <- inject_Z_mult in Hm.
  assert (z * d = n) by (apply (proj1 (inject_Z_injective _ _)); assumption). lia.
Qed.
Lemma rne_exact : forall z d, 0 < d -> rne (z * d) d = z.
Proof.
  intros z d Hd. apply rne_unique; [assumption| |]; assert (E : (qv (z * d) d == inject_Z z)%Q);
    try (unfold qv; rewrite inject_Z_mult; field; apply inject_nz; assumption); rewrite E; lra.
Qed.

(** Integers below 2^53 print with '.0f' as themselves. *)
Lemma fmt_f0_int : forall z, Z.abs z < 2 ^ 53 -> fmt_f0 (float_of_Z z) = dec_Z z.
Proof.
  intros z Hz. destruct (Z.eq_dec z 0) as [->|Hnz]; [reflexivity|].
  destruct (float_of_Z_exact z Hz Hnz) as (m & e & -> & _ & Hq & _). cbn [fmt_f0].
  destruct (frac_of m e) as [n d] eqn:Ef. destruct (frac_of_spec _ _ _ _ Ef) as (Hn & Hd & Hx). rewrite Hq in Hx.
  rewrite (qv_eq_Z _ _ _ Hd Hx). rewrite rne_exact by assumption. unfold dec_Z.
  destruct (Z.ltb_spec z 0); cbn [sign_text app]; do 2 f_equal; lia.
Qed.
Lemma py_int_of_float_exact : forall z, Z.abs z < 2 ^ 53 -> py_int_of_float (float_of_Z z) = Ok z.
Proof.
  intros z Hz. destruct (Z.eq_dec z 0) as [->|Hnz]; [reflexivity|].
  destruct (float_of_Z_exact z Hz Hnz) as (m & e & -> & _ & Hq & _). cbn [py_int_of_float].
  destruct (frac_of m e) as [n d] eqn:Ef. destruct (frac_of_spec _ _ _ _ Ef) as (Hn & Hd & Hx). rewrite Hq in Hx.
  rewrite (qv_eq_Z _ _ _ Hd Hx). rewrite Z.div_mul by lia. destruct (Z.ltb_spec z 0); f_equal; lia.
Qed.

(* ------------------------------------------------------------------ *)
(** ** struct *)
Lemma of_le_bytes_le : forall k z, 0 <= z < 256 ^ Z.of_nat k -> of_le_bytes (le_bytes k z) = z.
Proof.
  induction k as [|k IH]; intros z Hz.
  - change (256 ^ Z.of_nat 0) with 1 in Hz. cbn. lia.
  - cbn [le_bytes of_le_bytes]. rewrite Nat2Z.inj_succ, Z.pow_succ_r in Hz by lia.
    assert (Hm := Z.mod_pos_bound z 256 ltac:(lia)). assert (Hdm := Z.div_mod z 256 ltac:(lia)).
    rewrite IH. 2:{ split; [apply Z.div_pos; lia|]. apply Z.div_lt_upper_bound; lia. }
    rewrite Z2N.id by lia. lia.
Qed.
Lemma le_bytes_length : forall k z, length (le_bytes k z) = k.
Proof. induction k as [|k IH]; intro z; simpl; auto. Qed.
Lemma le_bytes_range : forall k z, Forall (fun b => (b < 256)%N) (le_bytes k z).
Proof.
  induction k as [|k IH]; intro z; cbn [le_bytes]; constructor; auto.
  assert (Hm := Z.mod_pos_bound z 256 ltac:(lia)). lia.
Qed.

Lemma bits64_range : forall f, f_valid f = true -> 0 <= bits64 f < 2 ^ 64.
Proof.
  intros [s|s| |s m e] Hf.
  - destruct s; vm_compute; split; [discriminate|reflexivity|discriminate|reflexivity].
  - destruct s; vm_compute; split; [discriminate|reflexivity|discriminate|reflexivity].
  - vm_compute; split; [discriminate|reflexivity].
  - cbn [bits64]. apply valid_canon in Hf. destruct Hf as (H1 & H2 & H3). unfold emin in *.
    change (2 ^ 53) with 9007199254740992 in *. change (2 ^ 52) with 4503599627370496 in *.
    change (2 ^ 64) with 18446744073709551616. change (2 ^ 63) with 9223372036854775808.
    destruct (Z.ltb_spec (Zpos m) 4503599627370496); destruct s; lia.
Qed.

(** The eight bytes of a double determine it. *)
Lemma unpack_pack_d : forall f, f_valid f = true -> unpack_d (pack_d f) = f.
Proof.
  intros f Hf. unfold unpack_d, pack_d. rewrite of_le_bytes_le by (apply bits64_range; assumption).
  destruct f as [s|s| |s m e]; [destruct s; vm_compute; reflexivity|destruct s; vm_compute; reflexivity|vm_compute; reflexivity|].
  apply valid_canon in Hf. assert (Hc := Hf). destruct Hf as (H1 & H2 & H3). unfold emin in *. cbn [bits64]. unfold of_bits.
  change (52 + 11) with 63. change (2 ^ 11) with 2048.
  change (2 ^ 53) with 9007199254740992 in *. change (2 ^ 52) with 4503599627370496 in *.
  change (2 ^ 63) with 9223372036854775808.
  assert (Hgen : forall ef mf, 0 <= ef < 2047 -> 0 <= mf < 4503599627370496 ->
    let z := (if s then 9223372036854775808 else 0) + ef * 4503599627370496 + mf in
    Z.odd (z / 9223372036854775808) = s /\ (z / 4503599627370496) mod 2048 = ef /\ z mod 4503599627370496 = mf).
  { intros ef mf He Hm. cbn zeta. split; [|split].
    - destruct s.
      + replace (_ / _) with 1; [reflexivity|]. apply Z.div_unique with (ef * 4503599627370496 + mf); lia.
      + rewrite Z.div_small by lia. reflexivity.
    - assert (E : ((if s then 9223372036854775808 else 0) + ef * 4503599627370496 + mf) / 4503599627370496 = (if s then 2048 else 0) + ef)
        by (symmetry; apply Z.div_unique with mf; destruct s; lia).
      rewrite E. destruct s; [|rewrite Z.add_0_l; apply Z.mod_small; lia].
      symmetry. apply Z.mod_unique with 1; lia.
    - symmetry. apply Z.mod_unique with ((if s then 2048 else 0) + ef); destruct s; lia. }
  assert (Hex : forall M E, M = Zpos m -> E = e -> 
     (if 0 <=? E then round64 s (M * 2 ^ E) 1 else round64 s M (2 ^ (- E))) = S754_finite s m e).
  { intros M E -> ->. destruct (frac_of m e) as [n d] eqn:Ef. destruct (frac_of_spec _ _ _ _ Ef) as (Hn & Hd & Hx).
    unfold frac_of in Ef. destruct (0 <=? e); apply pair_equal_spec in Ef as [<- <-]; apply round64_exact; assumption. }
  change (2048 - 1) with 2047.
  destruct (Z.ltb_spec (Zpos m) 4503599627370496) as [Hlt|Hge].
  - assert (e = -1074) by lia.
    destruct (Hgen 0 (Zpos m) ltac:(lia) ltac:(lia)) as (G1 & G2 & G3). rewrite Z.mul_0_l, Z.add_0_r in G1, G2, G3.
    rewrite G1, G2, G3. change (0 =? 2047) with false. change (0 =? 0) with true. cbv iota. apply Hex; lia.
  - destruct (Hgen (e + 1075) (Zpos m - 4503599627370496) ltac:(lia) ltac:(lia)) as (G1 & G2 & G3).
    rewrite G1, G2, G3. destruct (Z.eqb_spec (e + 1075) 2047); [lia|]. destruct (Z.eqb_spec (e + 1075) 0); [lia|].
    apply Hex; lia.
Qed.
