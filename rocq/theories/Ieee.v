(** The interchange formats of IEEE 754: the value of every bit pattern. *)
From Coq Require Import List NArith ZArith QArith Qpower Bool Lia Lqa.
From Coq.Floats Require Import SpecFloat.
Import ListNotations.
From Verif Require Import PyBase PyNum QFacts FloatFacts FloatExact.
Open Scope Z_scope.

(** [f] is the value of the bit pattern [z] with [mb] fraction bits and [eb]
    exponent bits, [unit] is the exponent of the smallest positive value:
    a sign bit, a biased exponent and a fraction. *)
Definition ieee (mb eb unit z : Z) (f : float) : Prop :=
  exists (s : bool) (E F : Z), 0 <= E < 2 ^ eb /\ 0 <= F < 2 ^ mb /\ z = (if s then 2 ^ (mb + eb) else 0) + E * 2 ^ mb + F /\
    (if E =? 2 ^ eb - 1 then f = (if F =? 0 then S754_infinity s else S754_nan)
     else f_valid f = true /\ f_finite f = true /\ fsign f = s /\
          (fmag f == if E =? 0 then inject_Z F * bpow 2 unit else inject_Z (2 ^ mb + F) * bpow 2 (unit + E - 1))%Q).

(** Every number of at most 53 bits is a double. *)
Lemma norm : forall M x, 0 < M < 2 ^ 53 -> emin <= x <= 971 -> exists m e, canon m e /\ (qm m e == inject_Z M * bpow 2 x)%Q.
Proof.
  intros M x HM Hx. unfold emin in Hx. set (k := Z.min (52 - Z.log2 M) (x + 1074)).
  assert (HL := Z.log2_spec M ltac:(lia)). assert (HL0 := Z.log2_nonneg M).
  assert (HL2 : Z.log2 M < 53) by (apply Z.log2_lt_pow2; lia).
  assert (Hk : 0 <= k) by (unfold k; lia).
  assert (Pk : 0 < 2 ^ k) by (apply Z.pow_pos_nonneg; lia).
  exists (Z.to_pos (M * 2 ^ k)), (x - k). assert (Ep : Zpos (Z.to_pos (M * 2 ^ k)) = M * 2 ^ k) by (apply Z2Pos.id; nia).
  split.
  - unfold canon, emin. rewrite Ep. split; [|split].
    + assert (Q : M * 2 ^ k < 2 ^ (Z.succ (Z.log2 M)) * 2 ^ k) by (apply Z.mul_lt_mono_pos_r; lia).
      rewrite <- Z.pow_add_r in Q by lia. assert (2 ^ (Z.succ (Z.log2 M) + k) <= 2 ^ 53) by (apply Z.pow_le_mono_r; unfold k; lia). lia.
    + unfold k. lia.
    + destruct (Z.le_gt_cases (52 - Z.log2 M) (x + 1074)) as [H|H]; [left|right; unfold k; lia].
      assert (Ek : k = 52 - Z.log2 M) by (unfold k; lia). assert (Q : 2 ^ Z.log2 M * 2 ^ k <= M * 2 ^ k) by (apply Z.mul_le_mono_nonneg_r; lia).
      rewrite <- Z.pow_add_r in Q by lia. replace (Z.log2 M + k) with 52 in Q by lia. exact Q.
  - unfold qm. rewrite Ep, inject_Z_mult, <- (bpow_Z 2 k) by lia. rewrite <- Qmult_assoc, <- bpow_add by lia. replace (k + (x - k)) with x by lia. reflexivity.
Qed.
Lemma qv_int : forall M x, 0 <= x -> (qv (M * 2 ^ x) 1 == inject_Z M * bpow 2 x)%Q.
Proof. intros M x H. unfold qv. rewrite inject_Z_mult, bpow_Z by assumption. field. Qed.
Lemma qv_frac : forall M x, x < 0 -> (qv M (2 ^ (- x)) == inject_Z M * bpow 2 x)%Q.
Proof.
  intros M x H. unfold qv. rewrite <- bpow_Z by lia. assert (P := bpow_pos 2 (- x) ltac:(lia)). assert (I := bpow_opp 2 x ltac:(lia)).
  apply (Qmult_inj_r _ _ (bpow 2 (- x))); [lra|]. rewrite <- Qmult_assoc. rewrite (Qmult_comm (bpow 2 x)), I. field. lra.
Qed.
Lemma exact_value : forall s M x, 0 <= M < 2 ^ 53 -> emin <= x <= 971 ->
  let f := if 0 <=? x then round64 s (M * 2 ^ x) 1 else round64 s M (2 ^ (- x)) in
  f_valid f = true /\ f_finite f = true /\ fsign f = s /\ (fmag f == inject_Z M * bpow 2 x)%Q.
Proof.
  intros s M x HM Hx f. destruct (Z.eq_dec M 0) as [->|H0].
  { assert (E : f = S754_zero s) by (unfold f; destruct (0 <=? x); reflexivity). rewrite E. split; [reflexivity|]. split; [reflexivity|]. split; [reflexivity|]. cbn [fmag]. change (inject_Z 0) with 0%Q. ring. }
  destruct (norm M x ltac:(lia) Hx) as (m & e & Hc & Hq).
  assert (E : f = S754_finite s m e).
  { unfold f. destruct (Z.leb_spec 0 x) as [Hs|Hs].
    - assert (P : 0 < 2 ^ x) by (apply Z.pow_pos_nonneg; lia). apply round64_exact; [nia|lia|exact Hc|]. rewrite Hq. apply qv_int. assumption.
    - assert (P : 0 < 2 ^ (- x)) by (apply Z.pow_pos_nonneg; lia). apply round64_exact; [lia|lia|exact Hc|]. rewrite Hq. apply qv_frac. assumption. }
  rewrite E. split; [apply valid_canon; exact Hc|]. split; [reflexivity|]. split; [reflexivity|]. exact Hq.
Qed.

Lemma parts : forall mb eb (s : bool) E F, 0 <= mb -> 0 <= eb -> 0 <= E < 2 ^ eb -> 0 <= F < 2 ^ mb ->
  let z := (if s then 2 ^ (mb + eb) else 0) + E * 2 ^ mb + F in
  Z.odd (z / 2 ^ (mb + eb)) = s /\ (z / 2 ^ mb) mod 2 ^ eb = E /\ z mod 2 ^ mb = F.
Proof.
  intros mb eb s E F Hm He HE HF z. assert (Pm : 0 < 2 ^ mb) by (apply Z.pow_pos_nonneg; lia). assert (Pe : 0 < 2 ^ eb) by (apply Z.pow_pos_nonneg; lia).
  assert (Q : 2 ^ (mb + eb) = 2 ^ mb * 2 ^ eb) by (apply Z.pow_add_r; lia). unfold z. rewrite Q. clear z Q.
  generalize dependent (2 ^ mb). generalize dependent (2 ^ eb). intros B HB PB A HA PA. split; [|split].
  - assert (D : ((if s then A * B else 0) + E * A + F) / (A * B) = if s then 1 else 0).
    { symmetry. apply Z.div_unique with (E * A + F); [left; nia|]. destruct s; lia. }
    rewrite D. destruct s; reflexivity.
  - assert (D : ((if s then A * B else 0) + E * A + F) / A = (if s then B else 0) + E).
    { symmetry. apply Z.div_unique with F; [left; lia|]. destruct s; ring. }
    rewrite D. destruct s; [|apply Z.mod_small; lia]. rewrite <- (Z.mul_1_l B) at 1. rewrite Z.add_comm, Z.mod_add by lia. apply Z.mod_small. lia.
  - symmetry. apply Z.mod_unique with ((if s then B else 0) + E); [left; lia|]. destruct s; ring.
Qed.
Lemma parts_ex : forall mb eb z, 0 <= mb -> 0 <= eb -> 0 <= z < 2 ^ (mb + eb + 1) ->
  exists (s : bool) E F, 0 <= E < 2 ^ eb /\ 0 <= F < 2 ^ mb /\ z = (if s then 2 ^ (mb + eb) else 0) + E * 2 ^ mb + F.
Proof.
  intros mb eb z Hm He Hz. assert (Pm : 0 < 2 ^ mb) by (apply Z.pow_pos_nonneg; lia). assert (Pe : 0 < 2 ^ eb) by (apply Z.pow_pos_nonneg; lia).
  rewrite !Z.pow_add_r in Hz by lia. rewrite Z.pow_add_r by lia. change (2 ^ 1) with 2 in Hz.
  generalize dependent (2 ^ mb). generalize dependent (2 ^ eb). intros B PB A Hz PA.
  exists (A * B <=? z), ((z - if A * B <=? z then A * B else 0) / A), ((z - if A * B <=? z then A * B else 0) mod A).
  set (y := z - if A * B <=? z then A * B else 0). assert (Hy : 0 <= y < A * B) by (unfold y; destruct (Z.leb_spec (A * B) z); lia).
  split; [split; [apply Z.div_pos; lia|apply Z.div_lt_upper_bound; lia]|]. split; [apply Z.mod_pos_bound; lia|].
  assert (D := Z.div_mod y A ltac:(lia)). unfold y in D |- *. lia.
Qed.

(** The bounds of a format whose values all are doubles. *)
Definition within64 (mb eb unit : Z) : Prop := 0 <= mb <= 52 /\ 2 <= eb /\ emin <= unit /\ unit + 2 ^ eb - 3 <= 971.
Lemma of_bits_ieee : forall mb eb unit z, within64 mb eb unit -> 0 <= z < 2 ^ (mb + eb + 1) -> ieee mb eb unit z (of_bits mb eb unit z).
Proof.
  intros mb eb unit z (Hm & He & Hu & Hmax) Hz. destruct (parts_ex mb eb z ltac:(lia) ltac:(lia) Hz) as (s & E & F & HE & HF & Ez).
  exists s, E, F. split; [exact HE|]. split; [exact HF|]. split; [exact Ez|].
  destruct (parts mb eb s E F ltac:(lia) ltac:(lia) HE HF) as (P1 & P2 & P3). rewrite <- Ez in P1, P2, P3.
  unfold of_bits. rewrite P1, P2, P3. destruct (E =? 2 ^ eb - 1) eqn:Ee; [reflexivity|]. apply Z.eqb_neq in Ee.
  assert (Bm : 2 ^ mb <= 2 ^ 52) by (apply Z.pow_le_mono_r; lia). assert (Pm : 0 < 2 ^ mb) by (apply Z.pow_pos_nonneg; lia).
  assert (B2 : 4 <= 2 ^ eb) by (change 4 with (2 ^ 2) at 1; apply Z.pow_le_mono_r; lia).
  change (2 ^ 52) with 4503599627370496 in Bm. unfold emin in *.
  destruct (Z.eqb_spec E 0) as [E0|E0].
  - apply exact_value; unfold emin; change (2 ^ 53) with 9007199254740992; lia.
  - rewrite (Z.add_comm F). apply exact_value; unfold emin; change (2 ^ 53) with 9007199254740992; lia.
Qed.
Lemma value_unique : forall f g, f_valid f = true -> f_valid g = true -> f_finite f = true -> f_finite g = true -> fsign f = fsign g -> (fmag f == fmag g)%Q -> f = g.
Proof.
  intros [s|s| |s m e] [s'|s'| |s' m' e'] Vf Vg Ff Fg Hs Hq; try discriminate; cbn [fsign fmag] in *; subst; try reflexivity.
  - exfalso. assert (P := qm_pos m' e'). lra.
  - exfalso. assert (P := qm_pos m e). lra.
  - apply valid_canon in Vf, Vg. destruct (frac_of m e) as [n d] eqn:Ef. destruct (frac_of_spec _ _ _ _ Ef) as (Hn & Hd & Hx).
    rewrite <- (round64_exact s' n d m e Hn Hd Vf Hx). apply (round64_exact s' n d m' e' Hn Hd Vg). rewrite Hx. exact Hq.
Qed.
Lemma ieee_unique : forall mb eb unit z f g, 0 <= mb -> 0 <= eb -> ieee mb eb unit z f -> ieee mb eb unit z g -> f = g.
Proof.
  intros mb eb unit z f g Hm He (s & E & F & HE & HF & Ez & H) (s' & E' & F' & HE' & HF' & Ez' & H').
  destruct (parts mb eb s E F Hm He HE HF) as (P1 & P2 & P3). destruct (parts mb eb s' E' F' Hm He HE' HF') as (P1' & P2' & P3').
  rewrite <- Ez in P1, P2, P3. rewrite <- Ez' in P1', P2', P3'. assert (Qs := eq_trans (eq_sym P1') P1). assert (QE := eq_trans (eq_sym P2') P2). assert (QF := eq_trans (eq_sym P3') P3). clear Ez Ez' P1 P2 P3 P1' P2' P3'. subst s' E' F'.
  destruct (E =? 2 ^ eb - 1); [congruence|]. destruct H as (V1 & F1 & S1 & Q1), H' as (V2 & F2 & S2 & Q2).
  apply value_unique; try assumption; [congruence|]. rewrite Q1, Q2. reflexivity.
Qed.

(** Byte strings: most significant byte first, and least significant byte first. *)
Definition big_value (b : bytes) : Z := fold_left (fun z x => 256 * z + Z.of_N x) b 0.
Definition is_byte (x : N) : Prop := (x < 256)%N.
(** The width in bytes and the number stored in [b]. *)
Definition width (dbl : bool) : nat := if dbl then 8%nat else 4%nat.
Definition stored_num (dbl big : bool) (b : bytes) (f : float) : Prop :=
  length b = width dbl /\ Forall is_byte b /\
  let z := big_value (if big then b else rev b) in if dbl then ieee 52 11 (-1074) z f else ieee 23 8 (-149) z f.

Lemma of_le_rev : forall b, of_le_bytes (rev b) = big_value b.
Proof.
  assert (A : forall b acc, fold_left (fun z x => 256 * z + Z.of_N x) b acc = of_le_bytes (rev b) + 256 ^ Z.of_nat (length b) * acc).
  { assert (B : forall a b, of_le_bytes (a ++ b) = of_le_bytes a + 256 ^ Z.of_nat (length a) * of_le_bytes b).
    { induction a as [|x a IH]; intro b; [cbn [app of_le_bytes length]; change (256 ^ Z.of_nat 0) with 1; lia|].
      cbn [app of_le_bytes length]. rewrite IH, Nat2Z.inj_succ, Z.pow_succ_r by lia. ring. }
    induction b as [|x b IH]; intro acc; [cbn [fold_left rev length of_le_bytes]; change (256 ^ Z.of_nat 0) with 1; lia|]. cbn [fold_left rev length]. rewrite IH, B, rev_length. cbn [of_le_bytes].
    rewrite Nat2Z.inj_succ, Z.pow_succ_r by lia. ring. }
  intro b. unfold big_value. rewrite A. rewrite Z.mul_0_r. symmetry. apply Z.add_0_r.
Qed.
Lemma big_range : forall b, Forall is_byte b -> 0 <= big_value b < 256 ^ Z.of_nat (length b).
Proof.
  intros b H. rewrite <- of_le_rev. rewrite <- (rev_length b). apply Forall_rev in H. induction H as [|x l Hx _ IH]; [cbn; lia|].
  cbn [of_le_bytes length]. rewrite Nat2Z.inj_succ, Z.pow_succ_r by lia. unfold is_byte in Hx. lia.
Qed.
Lemma unpack_stored : forall dbl big b f, stored_num dbl big b f ->
  (if dbl then unpack_d else unpack_f) ((if big then @rev N else fun b => b) b) = f.
Proof.
  intros dbl big b f (Hl & Hb & H). set (c := if big then b else rev b) in *. cbn zeta in H.
  assert (Ec : of_le_bytes ((if big then @rev N else fun b => b) b) = big_value c).
  { unfold c. rewrite <- of_le_rev. destruct big; [reflexivity|]. rewrite rev_involutive. reflexivity. }
  assert (Hr : 0 <= big_value c < 256 ^ Z.of_nat (width dbl)).
  { rewrite <- Hl. assert (El : length b = length c) by (unfold c; destruct big; [reflexivity|symmetry; apply rev_length]). rewrite El. apply big_range.
    unfold c. destruct big; [assumption|apply Forall_rev; assumption]. }
  destruct dbl.
  - unfold unpack_d. rewrite Ec. refine (ieee_unique 52 11 (-1074) _ _ _ ltac:(lia) ltac:(lia) _ H). apply of_bits_ieee; [|exact Hr].
    unfold within64, emin. repeat split; lia.
  - unfold unpack_f. rewrite Ec. refine (ieee_unique 23 8 (-149) _ _ _ ltac:(lia) ltac:(lia) _ H). apply of_bits_ieee; [|exact Hr].
    unfold within64, emin. repeat split; lia.
Qed.
(** Every eight or four bytes are a number. *)
Lemma stored_exists : forall dbl big b, length b = width dbl -> Forall is_byte b -> exists f, stored_num dbl big b f.
Proof.
  intros dbl big b Hl Hb. set (c := if big then b else rev b).
  assert (Hr : 0 <= big_value c < 256 ^ Z.of_nat (width dbl)).
  { rewrite <- Hl. assert (El : length b = length c) by (unfold c; destruct big; [reflexivity|symmetry; apply rev_length]). rewrite El. apply big_range.
    unfold c. destruct big; [assumption|apply Forall_rev; assumption]. }
  destruct dbl.
  - exists (of_bits 52 11 (-1074) (big_value c)). split; [exact Hl|]. split; [exact Hb|]. cbn zeta. apply of_bits_ieee; [|exact Hr].
    unfold within64, emin. repeat split; lia.
  - exists (of_bits 23 8 (-149) (big_value c)). split; [exact Hl|]. split; [exact Hb|]. cbn zeta. apply of_bits_ieee; [|exact Hr].
    unfold within64, emin. repeat split; lia.
Qed.
