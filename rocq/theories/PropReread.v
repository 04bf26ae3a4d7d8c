(** Reading back what was written, a second time: the same number, subnormal
    numbers included. *)
From Coq Require Import String List NArith ZArith Bool QArith Qpower Qabs Qround Lqa Lia.
Import ListNotations.
From Verif Require Import PyBase PyNum PyVal Tools Facts IntFacts QFacts FloatFacts DecFacts FloatText FloatExact DictFacts PropText PropNearest PropKinds.
From Coq Require Import Lia.
Open Scope Z_scope.

(** All numbers are multiples of the smallest. *)
Definition unit_h : Q := bpow 2 emin.
Lemma h_pos : (0 < unit_h)%Q.
Proof. apply bpow_pos. lia. Qed.
Lemma on_grid : forall g, number g -> exists z, (place g == inject_Z z * unit_h)%Q.
Proof.
  intros g N. destruct (place_number g N) as (j & i & _ & Hi & E). exists (j * 2 ^ (i - emin)).
  rewrite E. replace i with ((i - emin) + emin) at 1 by lia. rewrite bpow_add by lia. rewrite bpow_Z by lia. rewrite inject_Z_mult. unfold unit_h. ring.
Qed.
Definition small (z : Z) : float := match z with Zpos m => S754_finite false m emin | _ => S754_zero false end.
Lemma small_place : forall z, 0 <= z < 2 ^ 53 -> number (small z) /\ (place (small z) == inject_Z z * unit_h)%Q.
Proof.
  intros [|m|m] Hz; [| |lia].
  - split; [split; [reflexivity|discriminate]|]. cbn [small place]. change (inject_Z 0) with 0%Q. ring.
  - split; [split; [|discriminate]|].
    + apply valid_canon. split; [lia|]. split; [unfold emin; lia|right; reflexivity].
    + cbn [small]. rewrite place_finite. reflexivity.
Qed.
Lemma apart_h : forall a b : Z, a <> b -> (unit_h <= Qabs (inject_Z a * unit_h - inject_Z b * unit_h))%Q.
Proof.
  intros a b H. assert (P := h_pos). destruct (Z.lt_total a b) as [L|[L|L]]; [|congruence|].
  - assert (E : (inject_Z (a + 1) <= inject_Z b)%Q) by (apply inject_le; lia). rewrite inject_Z_plus in E. change (inject_Z 1) with 1%Q in E. apply Qabs_case; intro; nra.
  - assert (E : (inject_Z (b + 1) <= inject_Z a)%Q) by (apply inject_le; lia). rewrite inject_Z_plus in E. change (inject_Z 1) with 1%Q in E. apply Qabs_case; intro; nra.
Qed.

Lemma near_again : forall D D' y t, nearest D y -> (0 <= D)%Q -> (D <= inject_Z t * unit_h)%Q -> t + 1 < 2 ^ 53 ->
  (Qabs (place y - D') <= Qabs (place y - D))%Q -> nearest D' y.
Proof.
  intros D D' y t [Ny Hy] D0 Dt Ht C. assert (P := h_pos).
  set (z := Qfloor (D / unit_h)).
  assert (F1 := Qfloor_le (D / unit_h)). assert (F2 := Qlt_floor (D / unit_h)). fold z in F1, F2.
  assert (Ed : (D == D / unit_h * unit_h)%Q) by (field; lra).
  assert (Z1 : (inject_Z z * unit_h <= D)%Q) by (apply Qle_trans with (D / unit_h * unit_h)%Q; [apply Qmult_le_compat_r; [exact F1|lra]|rewrite <- Ed; apply Qle_refl]).
  assert (Z2 : (D < inject_Z (z + 1) * unit_h)%Q) by (apply Qle_lt_trans with (D / unit_h * unit_h)%Q; [rewrite <- Ed; apply Qle_refl|apply Qmult_lt_compat_r; [exact P|exact F2]]).
  assert (z0 : 0 <= z).
  { assert (X : (inject_Z 0 < inject_Z (z + 1))%Q) by (change (inject_Z 0) with 0%Q; nra). rewrite <- Zlt_Qlt in X. lia. }
  assert (zt : z <= t).
  { assert (X : (inject_Z z <= inject_Z t)%Q) by (apply Qmult_lt_0_le_reg_r with unit_h; [exact P|lra]). rewrite <- Zle_Qle in X. exact X. }
  destruct (small_place z ltac:(lia)) as [Na Ea]. destruct (small_place (z + 1) ltac:(lia)) as [Nb Eb].
  destruct (Hy _ Na) as [A1 A2]. destruct (Hy _ Nb) as [B1 B2]. rewrite Ea in A1, A2. rewrite Eb in B1, B2. rewrite inject_Z_plus in Z2, B1, B2. change (inject_Z 1) with 1%Q in *.
  set (u := inject_Z z) in *.
  rewrite (Qabs_pos (D - u * unit_h)) in A1, A2 by lra. rewrite (Qabs_neg (D - (u + 1) * unit_h)) in B1, B2 by lra.
  assert (Half : (Qabs (D - place y) <= (1 # 2) * unit_h)%Q) by lra.
  assert (Sw : forall a b : Q, (Qabs (a - b) == Qabs (b - a))%Q) by (intros a b; rewrite Qabs_Qminus; reflexivity).
  rewrite (Sw (place y) D'), (Sw (place y) D) in C.
  destruct (on_grid y Ny) as (zy & Ey).
  split; [exact Ny|]. intros g Ng. destruct (on_grid g Ng) as (zg & Eg). destruct (Z.eq_dec zg zy) as [E|E].
  - subst zg. rewrite Ey, Eg. split; [lra|]. intros _. left. reflexivity.
  - assert (Ap := apart_h zg zy E). rewrite <- Ey, <- Eg in Ap.
    assert (T : (Qabs (place g - place y) <= Qabs (D' - place g) + Qabs (D' - place y))%Q).
    { do 3 apply Qabs_case; intros; lra. }
    split; [lra|]. intro Eq. right.
    assert (X : (Qabs (D - place y) == (1 # 2) * unit_h)%Q) by lra.
    destruct (Z.eq_dec zy z) as [Ez|Ez].
    + destruct (B2 ltac:(lra)) as [Q|Q]; [|exact Q]. exfalso. rewrite Ey, Ez in Q. fold u in Q. lra.
    + destruct (A2 ltac:(lra)) as [Q|Q]; [|exact Q]. exfalso. rewrite Ey in Q. apply Ez.
      assert (Q' : (inject_Z zy == inject_Z z)%Q) by (refine (proj1 (Qmult_inj_r _ _ unit_h _) Q); intro X0; rewrite X0 in P; discriminate P). exact (proj1 (inject_Z_injective zy z) Q').
Qed.

Lemma rd_again : forall p f, (1 <= p)%nat -> short p -> f_valid f = true -> rd p (rd p f) = rd p f.
Proof.
  intros p f Hp Sp V. destruct (f_normal f) eqn:En; [apply rd_idem; assumption|].
  destruct f as [s|s| |s m e]; try reflexivity. assert (Hc := proj1 (valid_canon s m e) V). cbn [f_normal] in En. apply Z.leb_gt in En.
  assert (Em : e = emin) by (destruct Hc as (_ & _ & [C|C]); [lia|exact C]). subst e.
  destruct (rd_facts p s m emin Sp Hc) as (Fy & Vy & Sy & _). destruct (dec_round (Z.of_nat p) m emin) as [q k] eqn:Ed.
  destruct (dec_round_best (Z.of_nat p) m emin q k ltac:(lia) Ed) as [Hq Hb].
  assert (Hp10 : 0 < 10 ^ Z.of_nat p) by (apply Z.pow_pos_nonneg; lia).
  assert (Er : rd p (S754_finite s m emin) = float_of_dec s q (k - Z.of_nat p)) by (cbn [rd]; rewrite Ed; reflexivity).
  destruct (dec_nearest s q (k - Z.of_nat p) ltac:(lia)) as [Ny Sgn]. rewrite <- Er in Ny, Sgn.
  set (D := (inject_Z q * bpow 10 (k - Z.of_nat p))%Q) in *. set (y := rd p (S754_finite s m emin)) in *. clearbody y.
  assert (Pk := bpow_pos 10 (k - Z.of_nat p) ltac:(lia)). assert (Iq := inject_pos q ltac:(lia)).
  assert (D0 : (0 < D)%Q) by (unfold D; nra).
  destruct y as [sy|sy| |sy my ey]; try reflexivity. cbn [fsign] in Sgn. subst sy.
  destruct (dec_round (Z.of_nat p) my ey) as [q' k'] eqn:Ed'. destruct (dec_round_best (Z.of_nat p) my ey q' k' ltac:(lia) Ed') as [Hq' Hb'].
  assert (Er' : rd p (S754_finite s my ey) = float_of_dec s q' (k' - Z.of_nat p)) by (cbn [rd]; rewrite Ed'; reflexivity).
  destruct (dec_nearest s q' (k' - Z.of_nat p) ltac:(lia)) as [Ny' Sgn']. rewrite <- Er' in Ny', Sgn'.
  apply (C74_nearest (inject_Z q' * bpow 10 (k' - Z.of_nat p))); [exact Ny'| |rewrite Sgn'; reflexivity].
  apply (near_again D _ _ (2 * Zpos m)); [exact Ny|lra| |lia|].
  - destruct (Hb 0 0 ltac:(split; [lia|apply Z.pow_pos_nonneg; lia])) as [H0 _]. fold D in H0. change (inject_Z 0) with 0%Q in H0.
    unfold qm in H0. fold unit_h in H0. rewrite inject_Z_mult. change (inject_Z 2) with (2 # 1)%Q.
    assert (P := h_pos). assert (Im := inject_pos (Zpos m) ltac:(lia)). assert (X : (0 < inject_Z (Zpos m) * unit_h)%Q) by nra.
    set (x := (inject_Z (Zpos m) * unit_h)%Q) in *. assert (A : (Qabs (x - 0 * bpow 10 0) == x)%Q) by (rewrite Qabs_pos; [ring|ring_simplify; lra]).
    rewrite A in H0. apply Qabs_Qle_condition in H0. unfold x in *. lra.
  - destruct (Hb' q (k - Z.of_nat p) ltac:(lia)) as [H0 _]. rewrite place_finite. exact H0.
Qed.

(** No finite number other than zero is read back as zero. *)
Lemma rd_nonzero : forall p s m e, (1 <= p)%nat -> short p -> canon m e -> exists m' e', rd p (S754_finite s m e) = S754_finite s m' e'.
Proof.
  intros p s m e Hp Sp Hc. destruct (rd_facts p s m e Sp Hc) as (Fy & _ & Sy & _).
  destruct (dec_round (Z.of_nat p) m e) as [q k] eqn:Ed.
  destruct (dec_round_spec (Z.of_nat p) m e q k ltac:(lia) Ed) as (Hq & k0 & D1 & _ & D3 & D4 & _).
  assert (Hp10 : 0 < 10 ^ Z.of_nat p) by (apply Z.pow_pos_nonneg; lia).
  assert (Er : rd p (S754_finite s m e) = float_of_dec s q (k - Z.of_nat p)) by (cbn [rd]; rewrite Ed; reflexivity).
  destruct (dec_nearest s q (k - Z.of_nat p) ltac:(lia)) as [Ny _]. rewrite <- Er in Ny.
  set (y := rd p (S754_finite s m e)) in *. clearbody y. destruct y as [sy|sy| |sy my ey]; try discriminate.
  - exfalso. destruct Ny as [_ Ny]. assert (Nx : number (S754_finite s m e)) by (split; [apply valid_canon; exact Hc|discriminate]).
    destruct (Ny _ Nx) as [C _]. rewrite place_finite in C. change (place (S754_zero sy)) with 0%Q in C.
    assert (Px := qm_pos m e). assert (P1 := bpow_pos 10 (k0 - Z.of_nat p) ltac:(lia)).
    assert (E : (bpow 10 k0 == bpow 10 (k0 - Z.of_nat p) * bpow 10 (Z.of_nat p))%Q) by (rewrite <- bpow_add by lia; replace (k0 - Z.of_nat p + Z.of_nat p) with k0 by lia; reflexivity).
    assert (T : (10 # 1 <= bpow 10 (Z.of_nat p))%Q) by (change (10 # 1)%Q with (inject_Z 10); rewrite <- bpow_1; apply bpow_le; lia).
    set (D := (inject_Z q * bpow 10 (k - Z.of_nat p))%Q) in *. set (x := qm m e) in *. set (t := bpow 10 (k0 - Z.of_nat p)) in *.
    assert (X : (t * (10 # 1) <= x)%Q) by nra.
    revert C. do 2 apply Qabs_case; intros; lra.
  - exists my, ey. cbn [fsign] in Sy. subst sy. reflexivity.
Qed.
(** The text of a subnormal number has three digits of exponent. *)
Lemma sub_len : forall (s : bool) (m : positive), Zpos m < 2 ^ 52 -> ((if s then 13 else 12) <= length (fmt_e false 5 (S754_finite s m emin)))%nat.
Proof.
  intros s m Hm. cbn [fmt_e]. destruct (dec_round (Z.of_nat 5) m emin) as [q k] eqn:Ed.
  destruct (dec_round_spec (Z.of_nat 5) m emin q k ltac:(lia) Ed) as (Hq & k0 & D1 & _ & _ & _ & D5 & _).
  assert (B : (qm m emin < bpow 10 (-307))%Q).
  { apply Qlt_trans with (inject_Z (2 ^ 52) * bpow 2 emin)%Q; [|vm_compute; reflexivity]. unfold qm. apply Qmult_lt_compat_r; [apply bpow_pos; lia|]. rewrite <- Zlt_Qlt. exact Hm. }
  assert (K : k0 < -307) by (apply (bpow_lt_inv 10); [lia|]; eapply Qle_lt_trans; [exact D1|exact B]).
  destruct (mant_digits 5 q Hq) as [Hmo _]. change (mant_text 5 q) with (mant_of 5 (pad0 6 (dec_nat q))).
  destruct (mant_of_chars 5 _ Hmo) as (c & r & _ & _ & _ & Hl). destruct (exp_digits false k) as (ds & -> & Hd & Hv & H2 & _).
  assert (L3 : (3 <= length ds)%nat).
  { destruct ds as [|a [|b [|? ?]]]; cbn [length] in *; try lia. exfalso. cbn [forallb] in Hd. unfold is_digit in Hd.
    rewrite !andb_true_iff, !N.leb_le in Hd. unfold digits_val, digit_val in Hv. cbn [fold_left] in Hv. lia. }
  rewrite !app_length, Hl. cbn [length]. destruct s; cbn [sign_text length]; lia.
Qed.
Lemma sub_form : forall f, f_valid f = true -> f_normal f = false -> exists s m, f = S754_finite s m emin /\ Zpos m < 2 ^ 52.
Proof.
  intros f V En. destruct f as [s|s| |s m e]; try discriminate. assert (Hc := proj1 (valid_canon s m e) V). cbn [f_normal] in En. apply Z.leb_gt in En.
  assert (Em : e = emin) by (destruct Hc as (_ & _ & [C|C]); [lia|exact C]). subst e. exists s, m. split; [reflexivity|exact En].
Qed.
Lemma narrow_again : forall f, f_valid f = true -> narrow 5 f = true -> narrow 5 (rd 5 f) = true.
Proof.
  intros f V Nf. destruct (f_normal f) eqn:En.
  - unfold narrow in *. rewrite rd_stable; [exact Nf|exact short5|exact V|exact En].
  - destruct (sub_form f V En) as (s & m & -> & Hm). apply valid_canon in V. destruct (rd_facts 5 s m emin short5 V) as (_ & Vy & Sy & _).
    assert (L := sub_len s m Hm). unfold narrow in Nf. apply Nat.leb_le in Nf. destruct s; [lia|]. apply nonneg_narrow; [lia|exact Vy|exact Sy].
Qed.

(** C16: one reading settles a number.  The text of the smallest numbers may
    change when it is written again (C16_subnormal_unstable); the number that is
    read does not. *)
Theorem C16_settles : forall w p f text y text' y',
  p = 5%nat \/ p = 7%nat \/ p = 11%nat ->
  f_valid f = true ->
  fmt_specs [FExp w p] [VFloat f] = Ok text -> py_float text = Ok y ->
  fmt_specs [FExp w p] [VFloat y] = Ok text' -> py_float text' = Ok y' ->
  y' = y.
Proof.
  intros w p f text y text' y' Hp V T Y T' Y'.
  assert (Hs : short p) by (destruct Hp as [->|[->| ->]]; [apply short5|apply short7|apply short11]).
  apply fmt_exp_1 in T. subst text. rewrite py_float_rjust in Y. assert (E : y = rd p f) by congruence. subst y.
  apply fmt_exp_1 in T'. subst text'. rewrite py_float_rjust in Y'. assert (E : y' = rd p (rd p f)) by congruence. subst y'.
  apply rd_again; [destruct Hp as [->|[->| ->]]; lia|exact Hs|exact V].
Qed.
Print Assumptions C16_settles.
Example C16_settles_example : exists t1 y t2, fmt_specs [FExp 13 5] [VFloat (S754_finite false 202403 (-1074))] = Ok t1 /\ py_float t1 = Ok y /\
  fmt_specs [FExp 13 5] [VFloat y] = Ok t2 /\ py_float t2 = Ok y /\ t1 <> t2 /\ f_valid (S754_finite false 202403 (-1074)) = true.
Proof.
  eexists _, _, _. split; [vm_compute; reflexivity|]. split; [vm_compute; reflexivity|]. split; [vm_compute; reflexivity|].
  split; [vm_compute; reflexivity|]. split; [discriminate|vm_compute; reflexivity].
Qed.
