(** Decimal text of integers: printing, parsing, lengths. *)
From Verif Require Import PyBase PyNum Facts.
From Coq Require Import Lia.
Open Scope Z_scope.

Lemma digit_char : forall d, 0 <= d <= 9 -> is_digit (Z.to_N (48 + d)) = true /\ digit_val (Z.to_N (48 + d)) = d.
Proof.
  intros d H. unfold is_digit, digit_val. rewrite Z2N.id by lia. split; [|lia].
  apply andb_true_iff. split; apply N.leb_le; lia.
Qed.

Lemma digits_val_app : forall a c, digits_val (a ++ [c]) = 10 * digits_val a + digit_val c.
Proof. intros. unfold digits_val. rewrite fold_left_app. reflexivity. Qed.

Lemma digits_val_app2 : forall a b, digits_val (a ++ b) = digits_val a * 10 ^ Z.of_nat (length b) + digits_val b.
Proof.
  intros a b. induction b as [|c b IH] using rev_ind.
  - rewrite app_nil_r. simpl length. change (digits_val []) with 0. change (10 ^ Z.of_nat 0) with 1. lia.
  - rewrite app_assoc, !digits_val_app, IH, app_length. simpl length.
    rewrite Nat2Z.inj_add, Z.pow_add_r by lia. change (10 ^ Z.of_nat 1) with 10. lia.
Qed.

Lemma digits_val_bound : forall s, forallb is_digit s = true -> 0 <= digits_val s < 10 ^ Z.of_nat (length s).
Proof.
  intros s. induction s as [|c s IH] using rev_ind; intro H.
  - cbn. lia.
  - rewrite forallb_app in H. apply andb_true_iff in H as [H1 H2]. specialize (IH H1).
    rewrite digits_val_app, app_length, Nat2Z.inj_add, Z.pow_add_r by lia. change (10 ^ Z.of_nat (length [c])) with 10.
    simpl in H2. rewrite andb_true_r in H2. unfold is_digit in H2. apply andb_true_iff in H2 as [H2 H3].
    apply N.leb_le in H2, H3. unfold digit_val. lia.
Qed.

Lemma dec_aux_spec : forall fuel n, 0 <= n < 2 ^ (Z.of_nat fuel + 1) ->
  digits_val (dec_aux fuel n) = n /\ forallb is_digit (dec_aux fuel n) = true /\
  (1 <= length (dec_aux fuel n))%nat /\
  (n < 10 -> length (dec_aux fuel n) = 1%nat) /\
  (1 <= n -> 10 ^ (Z.of_nat (length (dec_aux fuel n)) - 1) <= n).
Proof.
  assert (H10 : forall n, n <> 0 -> 10 ^ (Z.of_nat 1 - 1) = 1) by reflexivity.
  induction fuel as [|f IH]; intros n Hn.
  - change (2 ^ (Z.of_nat 0 + 1)) with 2 in Hn. cbn [dec_aux]. rewrite Z.mod_small by lia.
    destruct (digit_char n ltac:(lia)) as [Hd Hv]. unfold digits_val. cbn [forallb fold_left length]. rewrite Hd, Hv.
    repeat split; lia.
  - cbn [dec_aux]. destruct (Z.ltb_spec n 10) as [Hlt|Hge].
    + destruct (digit_char n ltac:(lia)) as [Hd Hv]. unfold digits_val. cbn [forallb fold_left length]. rewrite Hd, Hv.
      repeat split; lia.
    + assert (Hb : 0 <= n / 10 < 2 ^ (Z.of_nat f + 1)).
      { split; [apply Z.div_pos; lia|]. rewrite Nat2Z.inj_succ in Hn.
        replace (Z.succ (Z.of_nat f) + 1) with (Z.of_nat f + 1 + 1) in Hn by lia.
        rewrite Z.pow_add_r in Hn by lia. change (2 ^ 1) with 2 in Hn. apply Z.div_lt_upper_bound; lia. }
      destruct (IH _ Hb) as (I1 & I2 & I3 & I4 & I5).
      assert (Hm := Z.mod_pos_bound n 10 ltac:(lia)).
      destruct (digit_char (n mod 10) ltac:(lia)) as [Hd Hv].
      rewrite digits_val_app, I1, Hv, forallb_app, I2, app_length. cbn [forallb length]. rewrite Hd.
      assert (Hdm := Z.div_mod n 10 ltac:(lia)).
      repeat split; try lia.
      intros _. rewrite Nat2Z.inj_add. simpl Z.of_nat at 2.
      assert (Hq : 1 <= n / 10) by (apply Z.div_le_lower_bound; lia). specialize (I5 Hq).
      replace (Z.of_nat (length (dec_aux f (n / 10))) + 1 - 1)
        with (Z.of_nat (length (dec_aux f (n / 10))) - 1 + 1) by lia.
      rewrite Z.pow_add_r by lia. change (10 ^ 1) with 10. lia.
Qed.

Lemma dec_nat_fuel : forall n, 0 <= n -> 0 <= n < 2 ^ (Z.of_nat (Z.to_nat (Z.log2 n)) + 1).
Proof.
  intros n H. split; [lia|]. rewrite Z2Nat.id by apply Z.log2_nonneg.
  destruct (Z.eq_dec n 0) as [->|Hn]; [reflexivity|]. apply Z.log2_spec. lia.
Qed.

Lemma dec_nat_val : forall n, 0 <= n -> digits_val (dec_nat n) = n.
Proof. intros n H. apply dec_aux_spec, dec_nat_fuel, H. Qed.
Lemma dec_nat_digits : forall n, 0 <= n -> forallb is_digit (dec_nat n) = true.
Proof. intros n H. apply dec_aux_spec, dec_nat_fuel, H. Qed.
Lemma dec_nat_pos_length : forall n, 0 <= n -> (1 <= length (dec_nat n))%nat.
Proof. intros n H. apply dec_aux_spec, dec_nat_fuel, H. Qed.
Lemma dec_nat_nonnil : forall n, 0 <= n -> dec_nat n <> [].
Proof. intros n H E. apply dec_nat_pos_length in H. rewrite E in H. simpl in H. lia. Qed.

(** Number of digits. *)
Lemma dec_nat_length : forall n k, 0 <= n -> (1 <= k)%nat ->
  (length (dec_nat n) <= k)%nat <-> n < 10 ^ Z.of_nat k.
Proof.
  intros n k Hn Hk. destruct (dec_aux_spec _ _ (dec_nat_fuel n Hn)) as (H1 & H2 & H3 & H4 & H5).
  fold (dec_nat n) in *. split; intro H.
  - assert (Hb := digits_val_bound _ H2). rewrite H1 in Hb.
    eapply Z.lt_le_trans; [apply Hb|]. apply Z.pow_le_mono_r; lia.
  - destruct (Z.eq_dec n 0) as [->|Hz]; [rewrite H4 by lia; lia|].
    specialize (H5 ltac:(lia)). destruct (le_lt_dec (length (dec_nat n)) k) as [|Hlt]; [assumption|].
    assert (10 ^ Z.of_nat k <= 10 ^ (Z.of_nat (length (dec_nat n)) - 1)) by (apply Z.pow_le_mono_r; lia). lia.
Qed.

Lemma dec_Z_length : forall z k, (1 <= k)%nat ->
  (length (dec_Z z) <= k)%nat <-> - 10 ^ (Z.of_nat k - 1) < z < 10 ^ Z.of_nat k.
Proof.
  intros z k Hk. unfold dec_Z. destruct (Z.ltb_spec z 0) as [H|H].
  - cbn [length].
    assert (Hpos : 0 < 10 ^ Z.of_nat k) by (apply Z.pow_pos_nonneg; lia).
    destruct (Nat.eq_dec k 1) as [->|Hk1].
    + assert (Hl := dec_nat_pos_length (-z) ltac:(lia)). change (10 ^ (Z.of_nat 1 - 1)) with 1. split; lia.
    + assert (Hl := dec_nat_length (- z) (k - 1) ltac:(lia) ltac:(lia)).
      rewrite Nat2Z.inj_sub in Hl by lia. change (Z.of_nat 1) with 1 in Hl. split; intro Hx.
      * assert (- z < 10 ^ (Z.of_nat k - 1)) by (apply Hl; lia). lia.
      * assert (length (dec_nat (- z)) <= k - 1)%nat by (apply Hl; lia). lia.
  - rewrite dec_nat_length by lia.
    assert (0 < 10 ^ (Z.of_nat k - 1)) by (apply Z.pow_pos_nonneg; lia). lia.
Qed.

Lemma is_digit_nonws : forall c, is_digit c = true -> is_ws c = false.
Proof.
  intros c H. unfold is_digit in H. apply andb_true_iff in H as [H1 H2]. apply N.leb_le in H1, H2.
  unfold is_ws.
  repeat (apply orb_false_iff; split);
    try (apply andb_false_iff; rewrite !N.leb_gt; lia); apply N.eqb_neq; lia.
Qed.
Lemma is_digit_not : forall c d, is_digit c = true -> is_digit d = false -> (c =? d)%N = false.
Proof. intros c d H1 H2. apply N.eqb_neq. intros ->. congruence. Qed.

Lemma forallb_impl : forall A (f g : A -> bool) l, (forall a, f a = true -> g a = true) -> forallb f l = true -> forallb g l = true.
Proof.
  intros A f g l H. induction l as [|a l IH]; simpl; auto. intro E. apply andb_true_iff in E as [E1 E2].
  rewrite (H _ E1). auto.
Qed.

Definition numch (c : N) : bool := is_digit c || (c =? 45)%N.
Lemma numch_nonws : forall c, numch c = true -> negb (is_ws c) = true.
Proof.
  intros c H. unfold numch in H. apply orb_true_iff in H as [H|H].
  - rewrite (is_digit_nonws _ H). reflexivity.
  - apply N.eqb_eq in H. subst. reflexivity.
Qed.

Lemma dec_Z_numch : forall z, forallb numch (dec_Z z) = true.
Proof.
  intro z. unfold dec_Z. destruct (Z.ltb_spec z 0); cbn [forallb].
  - change (numch 45) with true. cbn [andb].
    eapply forallb_impl; [|apply dec_nat_digits; lia]. intros a Ha. unfold numch. rewrite Ha. reflexivity.
  - eapply forallb_impl; [|apply dec_nat_digits; lia]. intros a Ha. unfold numch. rewrite Ha. reflexivity.
Qed.
Lemma dec_Z_nonnil : forall z, dec_Z z <> [].
Proof. intro z. unfold dec_Z. destruct (Z.ltb_spec z 0); [discriminate|apply dec_nat_nonnil; lia]. Qed.
Lemma dec_Z_nonws : forall z, nonws (dec_Z z).
Proof.
  intro z. split; [apply dec_Z_nonnil|]. eapply forallb_impl; [apply numch_nonws|apply dec_Z_numch].
Qed.

Lemma span_all : forall f s, forallb f s = true -> span f s = (s, []).
Proof.
  intros f s. induction s as [|c s IH]; simpl; auto. intro H. apply andb_true_iff in H as [-> H].
  rewrite IH by assumption. reflexivity.
Qed.
Lemma span_stop : forall f s c r, forallb f s = true -> f c = false -> span f (s ++ c :: r) = (s, c :: r).
Proof.
  intros f s c r. induction s as [|x s IH]; simpl; intros H Hc; [rewrite Hc; reflexivity|].
  apply andb_true_iff in H as [-> H]. rewrite IH by assumption. reflexivity.
Qed.

Lemma rm_underscore_id : forall s prev, forallb (fun c => negb (c =? 95)%N) s = true -> rm_underscore prev s = Some s.
Proof.
  induction s as [|c s IH]; simpl; auto. intros prev H. apply andb_true_iff in H as [H1 H2].
  apply negb_true_iff in H1. rewrite H1, IH by assumption. reflexivity.
Qed.

Lemma int_core_dec : forall z, int_core (dec_Z z) = Some z.
Proof.
  intro z. unfold int_core. rewrite rm_underscore_id.
  2:{ eapply forallb_impl; [|apply dec_Z_numch]. intros c Hc. unfold numch in Hc.
      apply orb_true_iff in Hc as [Hc|Hc]; [rewrite (is_digit_not c 95 Hc eq_refl); reflexivity|].
      apply N.eqb_eq in Hc. subst. reflexivity. }
  unfold dec_Z. destruct (Z.ltb_spec z 0) as [H|H].
  - cbn [read_sign]. change (45 =? 45)%N with true. cbv iota.
    rewrite span_all by (apply dec_nat_digits; lia).
    rewrite dec_nat_val by lia. destruct (dec_nat (- z)) eqn:E; [apply dec_nat_nonnil in E; lia|]. f_equal. lia.
  - assert (Hd := dec_nat_digits z H). assert (Hv := dec_nat_val z H).
    destruct (dec_nat z) as [|c r] eqn:E; [apply dec_nat_nonnil in E; lia|].
    cbn [read_sign]. simpl in Hd. apply andb_true_iff in Hd as [Hc Hr].
    rewrite (is_digit_not c 45 Hc eq_refl), (is_digit_not c 43 Hc eq_refl).
    rewrite span_all by (simpl; rewrite Hc; assumption). rewrite Hv. reflexivity.
Qed.

Lemma py_int_padded : forall a z b, forallb is_ws_num a = true -> forallb is_ws_num b = true ->
  py_int (a ++ dec_Z z ++ b) = Ok z.
Proof.
  intros a z b Ha Hb. unfold py_int, strip_num. rewrite strip_by_pre by assumption. rewrite strip_by_post by assumption.
  rewrite strip_by_nonws by apply nonws_num, dec_Z_nonws. rewrite int_core_dec. reflexivity.
Qed.
Lemma py_int_dec : forall z, py_int (dec_Z z) = Ok z.
Proof. intro z. rewrite <- (app_nil_r (dec_Z z)). apply (py_int_padded [] z []); reflexivity. Qed.
Lemma strip_dec : forall z, strip (dec_Z z) = dec_Z z.
Proof. intro z. apply strip_by_nonws. apply dec_Z_nonws. Qed.
Lemma py_int_rjust : forall w z, py_int (rjust w (dec_Z z)) = Ok z.
Proof. intros. unfold rjust. rewrite <- (app_nil_r (dec_Z z)). apply py_int_padded; [apply blanks_num|reflexivity]. Qed.
Lemma strip_num_dec : forall z, strip_num (dec_Z z) = dec_Z z.
Proof. intro z. apply strip_by_nonws. apply nonws_num, dec_Z_nonws. Qed.
