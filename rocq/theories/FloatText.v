(** Text of floats: [%.pe] is parsed back to [rd p]; characters and lengths. *)
From Verif Require Import PyBase PyNum Facts IntFacts QFacts FloatFacts DecFacts.
From Coq Require Import QArith Qpower Qabs Lqa Lia.
Open Scope Z_scope.

(** Characters of a printed float. *)
Definition fltch (c : N) : bool :=
  is_digit c || existsb (N.eqb c) [43; 45; 46; 69; 101; 105; 110; 102; 97; 73; 78; 70; 65]%N.
Lemma fltch_nonws : forall c, fltch c = true -> negb (is_ws c) = true.
Proof.
  intros c H. unfold fltch in H. apply orb_true_iff in H as [H|H].
  - rewrite (is_digit_nonws _ H). reflexivity.
  - apply existsb_exists in H as (x & Hx & E). apply N.eqb_eq in E. subst x.
    simpl in Hx. repeat destruct Hx as [<-|Hx]; try reflexivity. destruct Hx.
Qed.
Lemma digit_fltch : forall c, is_digit c = true -> fltch c = true.
Proof. intros c H. unfold fltch. rewrite H. reflexivity. Qed.

Lemma pad0_digits : forall w s, forallb is_digit s = true -> forallb is_digit (pad0 w s) = true.
Proof. intros w s H. unfold pad0. rewrite forallb_app, H, forallb_repeat by reflexivity. reflexivity. Qed.
Lemma digits_val_zeros : forall n, digits_val (repeat 48%N n) = 0.
Proof.
  induction n as [|n IH]; [reflexivity|]. change (repeat 48%N (S n)) with ([48%N] ++ repeat 48%N n).
  rewrite digits_val_app2, IH. change (digits_val [48%N]) with 0. lia.
Qed.
Lemma pad0_val : forall w s, digits_val (pad0 w s) = digits_val s.
Proof. intros w s. unfold pad0. rewrite digits_val_app2, digits_val_zeros. lia. Qed.
Lemma pad0_length : forall w s, length (pad0 w s) = Nat.max w (length s).
Proof. intros. unfold pad0. rewrite app_length, repeat_length. lia. Qed.

(** Digits of the mantissa of a printed value. *)
Definition mant_ok (p : nat) (ds : str) : Prop := forallb is_digit ds = true /\ length ds = S p.
Definition mant_of (p : nat) (ds : str) : str :=
  match ds with c :: r => match p with O => [c] | S _ => c :: 46%N :: r end | [] => [] end.

Lemma mant_zero : forall p, mant_ok p (pad0 (S p) (dec_nat 0)).
Proof.
  intro p. split; [apply pad0_digits; reflexivity|]. rewrite pad0_length. change (length (dec_nat 0)) with 1%nat. lia.
Qed.
Lemma mant_digits : forall p q, 10 ^ Z.of_nat p <= q < 10 ^ (Z.of_nat p + 1) ->
  mant_ok p (pad0 (S p) (dec_nat q)) /\ digits_val (pad0 (S p) (dec_nat q)) = q.
Proof.
  intros p q Hq. assert (0 < 10 ^ Z.of_nat p) by (apply Z.pow_pos_nonneg; lia).
  split; [split|].
  - apply pad0_digits, dec_nat_digits. lia.
  - rewrite pad0_length. assert (length (dec_nat q) <= S p)%nat; [|lia].
    apply dec_nat_length; [lia|lia|]. rewrite Nat2Z.inj_succ. unfold Z.succ. lia.
  - rewrite pad0_val. apply dec_nat_val. lia.
Qed.

Lemma exp_digits : forall u k, exists ds, exp_text u k = (if u then 69%N else 101%N) :: (if k <? 0 then 45%N else 43%N) :: ds /\
  forallb is_digit ds = true /\ digits_val ds = Z.abs k /\ (2 <= length ds)%nat /\ (Z.abs k < 1000 -> (length ds <= 3)%nat).
Proof.
  intros u k. exists (pad0 2 (dec_nat (Z.abs k))). split; [reflexivity|].
  split; [apply pad0_digits, dec_nat_digits; lia|]. split; [rewrite pad0_val; apply dec_nat_val; lia|].
  rewrite pad0_length. split; [lia|]. intro H. assert (length (dec_nat (Z.abs k)) <= 3)%nat; [|lia].
  apply dec_nat_length; [lia|lia|]. assumption.
Qed.

Lemma parse_exp_text : forall u k, parse_exp (exp_text u k) = Some k.
Proof.
  intros u k. destruct (exp_digits u k) as (ds & -> & Hd & Hv & Hl & _). unfold parse_exp.
  replace (((if u then 69 else 101) =? 101) || ((if u then 69 else 101) =? 69))%N with true by (destruct u; reflexivity).
  cbn [read_sign]. destruct ds as [|c ds]; [simpl in Hl; lia|].
  destruct (Z.ltb_spec k 0) as [H|H].
  - change (45 =? 45)%N with true. cbv iota. rewrite span_all by assumption. rewrite Hv. f_equal. lia.
  - change (43 =? 45)%N with false. change (43 =? 43)%N with true. cbv iota. rewrite span_all by assumption. rewrite Hv. f_equal. lia.
Qed.

Lemma float_unsigned_text : forall s p ds u k, mant_ok p ds ->
  float_unsigned s (mant_of p ds ++ exp_text u k) = Some (float_of_dec s (digits_val ds) (k - Z.of_nat p)).
Proof.
  intros s p ds u k [Hd Hl]. destruct ds as [|c r]; [discriminate Hl|]. simpl in Hl. injection Hl as Hl.
  simpl in Hd. apply andb_true_iff in Hd as [Hc Hr].
  assert (He : exists e0 er, exp_text u k = e0 :: er /\ is_digit e0 = false /\ (e0 =? 46)%N = false).
  { unfold exp_text. eexists _, _. split; [reflexivity|]. destruct u; split; reflexivity. }
  destruct He as (e0 & er & He & He1 & He2).
  unfold float_unsigned. destruct p as [|p]; cbn [mant_of].
  - destruct r; [|discriminate]. simpl app. cbn [span]. rewrite Hc, He. cbn [span]. rewrite He1, He2. cbn [app].
    rewrite <- He, parse_exp_text. reflexivity.
  - rewrite <- !app_comm_cons. cbn [span]. rewrite Hc. change (is_digit 46) with false. cbv iota.
    change (46 =? 46)%N with true. cbv iota. rewrite He. rewrite span_stop by assumption. cbn [app].
    rewrite <- He, parse_exp_text. rewrite Hl. reflexivity.
Qed.

Lemma mant_of_chars : forall p ds, mant_ok p ds -> exists c r, mant_of p ds = c :: r /\ is_digit c = true /\
  forallb (fun a => is_digit a || (a =? 46)%N) (mant_of p ds) = true /\
  length (mant_of p ds) = (match p with O => 1 | S _ => p + 2 end)%nat.
Proof.
  intros p ds [Hd Hl]. destruct ds as [|c r]; [discriminate Hl|]. simpl in Hl. injection Hl as Hl.
  simpl in Hd. apply andb_true_iff in Hd as [Hc Hr]. destruct p; cbn [mant_of].
  - exists c, []. rewrite Hc. simpl. rewrite Hc. auto.
  - exists c, (46%N :: r). split; [reflexivity|]. split; [assumption|]. split.
    + cbn [forallb]. rewrite Hc. simpl. eapply forallb_impl; [|exact Hr]. intros a ->. reflexivity.
    + simpl. lia.
Qed.

Lemma no_underscore : forall s, forallb fltch s = true -> forallb (fun c => negb (c =? 95)%N) s = true.
Proof.
  intros s. apply forallb_impl. intros c H. destruct (N.eqb_spec c 95) as [->|]; [discriminate H|reflexivity].
Qed.

Lemma float_core_text : forall s p ds u k, mant_ok p ds ->
  float_core (sign_text s ++ mant_of p ds ++ exp_text u k) = Some (float_of_dec s (digits_val ds) (k - Z.of_nat p)).
Proof.
  intros s p ds u k Hm. destruct (mant_of_chars p ds Hm) as (c & r & Em & Hc & Hall & _).
  destruct (exp_digits u k) as (es & Ee & Hes & _).
  unfold float_core. rewrite rm_underscore_id.
  2:{ apply no_underscore. rewrite !forallb_app. apply andb_true_iff. split; [destruct s; reflexivity|].
      apply andb_true_iff. split.
      - eapply forallb_impl; [|exact Hall]. intros a Ha. apply orb_true_iff in Ha as [Ha|Ha]; [apply digit_fltch; assumption|].
        apply N.eqb_eq in Ha. subst. reflexivity.
      - rewrite Ee. cbn [forallb]. apply andb_true_iff. split; [destruct u; reflexivity|]. apply andb_true_iff.
        split; [destruct (k <? 0); reflexivity|]. eapply forallb_impl; [apply digit_fltch|assumption]. }
  assert (Hsg : read_sign (sign_text s ++ mant_of p ds ++ exp_text u k) = (s, mant_of p ds ++ exp_text u k)).
  { destruct s; [reflexivity|]. simpl. rewrite Em. simpl. rewrite (is_digit_not c 45 Hc eq_refl), (is_digit_not c 43 Hc eq_refl). reflexivity. }
  rewrite Hsg.
  assert (Hlow : lower_char c = c).
  { unfold lower_char. unfold is_digit in Hc. apply andb_true_iff in Hc as [_ Hc]. apply N.leb_le in Hc.
    destruct (N.leb_spec 65 c); [lia|reflexivity]. }
  assert (Hn1 : forall w t, is_digit w = false -> leqb (lower (mant_of p ds ++ exp_text u k)) (w :: t) = false).
  { intros w t Hw. rewrite Em. cbn [app lower map leqb]. rewrite Hlow. rewrite (is_digit_not c w Hc Hw). reflexivity. }
  change (lit "inf") with (105%N :: lit "nf"). change (lit "infinity") with (105%N :: lit "nfinity"). change (lit "nan") with (110%N :: lit "an").
  rewrite !Hn1 by reflexivity. cbn [orb]. apply float_unsigned_text. assumption.
Qed.

(** What [%.pe] prints is read as [rd p]. *)
Lemma float_core_fmt : forall u p f, float_core (fmt_e u p f) = Some (rd p f).
Proof.
  intros u p [s|s| |s m e]; cbn [fmt_e rd].
  - change (mant_text p 0) with (mant_of p (pad0 (S p) (dec_nat 0))).
    rewrite float_core_text by apply mant_zero. rewrite pad0_val. change (digits_val (dec_nat 0)) with 0.
    unfold float_of_dec. destruct (0 <=? 0 - Z.of_nat p); reflexivity.
  - destruct s, u; reflexivity.
  - destruct u; reflexivity.
  - destruct (dec_round (Z.of_nat p) m e) as [q k] eqn:Ed.
    destruct (dec_round_spec _ _ _ _ _ (Nat2Z.is_nonneg p) Ed) as (Hq & _).
    destruct (mant_digits p q Hq) as [Hm Hv].
    change (mant_text p q) with (mant_of p (pad0 (S p) (dec_nat q))). rewrite float_core_text by assumption. rewrite Hv. reflexivity.
Qed.

Lemma fmt_e_chars : forall u p f, forallb fltch (fmt_e u p f) = true.
Proof.
  assert (Hexp : forall u k, forallb fltch (exp_text u k) = true).
  { intros u k. destruct (exp_digits u k) as (es & -> & Hes & _). cbn [forallb].
    apply andb_true_iff. split; [destruct u; reflexivity|]. apply andb_true_iff.
    split; [destruct (k <? 0); reflexivity|]. eapply forallb_impl; [apply digit_fltch|assumption]. }
  assert (Hmant : forall p ds, mant_ok p ds -> forallb fltch (mant_of p ds) = true).
  { intros p ds Hm. destruct (mant_of_chars p ds Hm) as (c & r & Em & Hc & Hall & _).
    eapply forallb_impl; [|exact Hall]. intros a Ha. apply orb_true_iff in Ha as [Ha|Ha]; [apply digit_fltch; assumption|].
    apply N.eqb_eq in Ha. subst. reflexivity. }
  intros u p [s|s| |s m e]; cbn [fmt_e].
  - rewrite !forallb_app, Hexp. change (mant_text p 0) with (mant_of p (pad0 (S p) (dec_nat 0))).
    rewrite Hmant by apply mant_zero. destruct s; reflexivity.
  - destruct s, u; reflexivity.
  - destruct u; reflexivity.
  - destruct (dec_round (Z.of_nat p) m e) as [q k] eqn:Ed.
    destruct (dec_round_spec _ _ _ _ _ (Nat2Z.is_nonneg p) Ed) as (Hq & _).
    destruct (mant_digits p q Hq) as [Hm Hv]. rewrite !forallb_app, Hexp.
    change (mant_text p q) with (mant_of p (pad0 (S p) (dec_nat q))). rewrite Hmant by assumption. destruct s; reflexivity.
Qed.

Lemma fmt_e_nonnil : forall u p f, fmt_e u p f <> [].
Proof.
  intros u p f E. assert (H := float_core_fmt u p f). rewrite E in H. discriminate H.
Qed.
Lemma fmt_e_nonws : forall u p f, nonws (fmt_e u p f).
Proof. intros. split; [apply fmt_e_nonnil|]. eapply forallb_impl; [apply fltch_nonws|apply fmt_e_chars]. Qed.

Lemma py_float_padded : forall a u p f b, forallb is_ws_num a = true -> forallb is_ws_num b = true ->
  py_float (a ++ fmt_e u p f ++ b) = Ok (rd p f).
Proof.
  intros a u p f b Ha Hb. unfold py_float, strip_num. rewrite strip_by_pre by assumption. rewrite strip_by_post by assumption.
  rewrite strip_by_nonws by apply nonws_num, fmt_e_nonws. rewrite float_core_fmt. reflexivity.
Qed.
Lemma py_float_fmt : forall u p f, py_float (fmt_e u p f) = Ok (rd p f).
Proof. intros. rewrite <- (app_nil_r (fmt_e u p f)). apply (py_float_padded [] u p f []); reflexivity. Qed.
Lemma py_float_rjust : forall w u p f, py_float (rjust w (fmt_e u p f)) = Ok (rd p f).
Proof. intros. unfold rjust. rewrite <- (app_nil_r (fmt_e u p f)). apply py_float_padded; [apply blanks_num|reflexivity]. Qed.

(** Decimal exponents of binary64 values have at most three digits. *)
Lemma dec_round_exp : forall p m e q k, canon m e -> dec_round (Z.of_nat p) m e = (q, k) -> -325 <= k <= 309.
Proof.
  intros p m e q k Hc Hd. destruct (dec_round_spec _ _ _ _ _ (Nat2Z.is_nonneg p) Hd) as (Hq & k0 & D1 & D2 & _ & _ & D5 & _).
  assert (Hx := qm_max m e Hc).
  assert (k0 < 309).
  { apply (bpow_lt_inv 10); [lia|]. eapply Qle_lt_trans; [apply D1|]. eapply Qle_lt_trans; [apply Hx|]. vm_compute. reflexivity. }
  assert (-325 < k0 + 1).
  { apply (bpow_lt_inv 10); [lia|]. eapply Qlt_trans; [|apply D2].
    assert (bpow 2 (-1074) <= qm m e)%Q.
    { unfold qm. destruct Hc as (_ & Hc & _). assert (bpow 2 (-1074) <= bpow 2 e)%Q by (apply bpow_le; unfold emin in Hc; lia).
      assert (inject_Z 1 <= inject_Z (Zpos m))%Q by (apply inject_le; lia). change (inject_Z 1) with 1%Q in *.
      assert (P := bpow_pos 2 e ltac:(lia)). assert (1 * bpow 2 e <= inject_Z (Zpos m) * bpow 2 e)%Q by (apply Qmult_le_compat_r; lra). lra. }
    eapply Qlt_le_trans; [|exact H0]. vm_compute. reflexivity. }
  lia.
Qed.

(** Lengths: sign, digit, point, p digits, exponent. *)
Lemma fmt_e_length : forall u p f, (1 <= p)%nat -> f_valid f = true -> (length (fmt_e u p f) <= p + 8)%nat.
Proof.
  intros u p f Hp Hf.
  assert (Hm : forall s ds k, mant_ok p ds -> Z.abs k < 1000 -> (length (sign_text s ++ mant_of p ds ++ exp_text u k) <= p + 8)%nat).
  { intros s ds k Hm Hk. destruct (mant_of_chars p ds Hm) as (c & r & _ & _ & _ & Hl).
    destruct (exp_digits u k) as (es & -> & _ & _ & _ & Hes). specialize (Hes Hk).
    rewrite !app_length, Hl. simpl length. destruct p; [lia|]. destruct s; simpl; lia. }
  destruct f as [s|s| |s m e]; cbn [fmt_e].
  - change (mant_text p 0) with (mant_of p (pad0 (S p) (dec_nat 0))). apply Hm; [apply mant_zero|lia].
  - destruct s, u; simpl; lia.
  - destruct u; simpl; lia.
  - apply valid_canon in Hf. destruct (dec_round (Z.of_nat p) m e) as [q k] eqn:Ed.
    destruct (dec_round_spec _ _ _ _ _ (Nat2Z.is_nonneg p) Ed) as (Hq & _).
    destruct (mant_digits p q Hq) as [Hmo Hv].
    change (mant_text p q) with (mant_of p (pad0 (S p) (dec_nat q))). apply Hm; [assumption|].
    assert (H := dec_round_exp _ _ _ _ _ Hf Ed). lia.
Qed.

(** One column less when not negative, or when the exponent has two digits. *)
Definition narrow (p : nat) (f : float) : bool := Nat.leb (length (fmt_e false p f)) (p + 7).
Lemma fmt_e_case : forall p f, length (fmt_e true p f) = length (fmt_e false p f).
Proof.
  intros p [s|s| |s m e]; cbn [fmt_e]; [| | |destruct (dec_round _ m e)]; rewrite ?app_length; reflexivity.
Qed.
Lemma nonneg_narrow : forall p f, (1 <= p)%nat -> f_valid f = true -> fsign f = false -> narrow p f = true.
Proof.
  intros p f Hp Hf Hs. unfold narrow. apply Nat.leb_le.
  assert (Hm : forall ds k, mant_ok p ds -> Z.abs k < 1000 -> (length (mant_of p ds ++ exp_text false k) <= p + 7)%nat).
  { intros ds k Hm Hk. destruct (mant_of_chars p ds Hm) as (c & r & _ & _ & _ & Hl).
    destruct (exp_digits false k) as (es & -> & _ & _ & _ & Hes). specialize (Hes Hk).
    rewrite !app_length, Hl. simpl length. destruct p; [lia|]. lia. }
  destruct f as [s|s| |s m e]; cbn [fmt_e fsign] in *; try subst s; cbn [sign_text app].
  - change (mant_text p 0) with (mant_of p (pad0 (S p) (dec_nat 0))). apply Hm; [apply mant_zero|lia].
  - simpl; lia.
  - simpl; lia.
  - apply valid_canon in Hf. destruct (dec_round (Z.of_nat p) m e) as [q k] eqn:Ed.
    destruct (dec_round_spec _ _ _ _ _ (Nat2Z.is_nonneg p) Ed) as (Hq & _).
    destruct (mant_digits p q Hq) as [Hmo Hv].
    change (mant_text p q) with (mant_of p (pad0 (S p) (dec_nat q))). cbn [app]. apply Hm; [assumption|].
    assert (H := dec_round_exp _ _ _ _ _ Hf Ed). lia.
Qed.

(** ** Facts about [rd] used by the data sets *)
Lemma rd_valid : forall p f, short p -> f_valid f = true -> f_valid (rd p f) = true.
Proof.
  intros p [s|s| |s m e] Hp Hf; try reflexivity. apply valid_canon in Hf. apply (rd_facts p s m e Hp Hf).
Qed.
Lemma rd_finite : forall p f, short p -> f_valid f = true -> f_finite f = true -> f_finite (rd p f) = true.
Proof.
  intros p [s|s| |s m e] Hp Hf Hfin; try assumption. apply valid_canon in Hf. apply (rd_facts p s m e Hp Hf).
Qed.
(** The normal range: zeros, non-numbers, and |x| >= 2^-1022. *)
Definition f_normal (f : float) : bool :=
  match f with S754_finite _ m _ => (2 ^ 52 <=? Zpos m) | _ => true end.
Lemma rd_stable : forall u p f, short p -> f_valid f = true -> f_normal f = true -> fmt_e u p (rd p f) = fmt_e u p f.
Proof.
  intros u p [s|s| |s m e] Hp Hf Hn; try reflexivity. apply valid_canon in Hf. cbn [f_normal] in Hn. apply Z.leb_le in Hn.
  destruct (rd_facts p s m e Hp Hf) as (_ & _ & _ & H). destruct (H Hn) as (_ & _ & m' & e' & -> & E).
  cbn [fmt_e]. rewrite E. reflexivity.
Qed.
Lemma rd_idem : forall p f, short p -> f_valid f = true -> f_normal f = true -> rd p (rd p f) = rd p f.
Proof.
  intros p f Hp Hf Hn. assert (H := float_core_fmt false p (rd p f)). rewrite rd_stable in H by assumption.
  rewrite float_core_fmt in H. congruence.
Qed.
Lemma rd_error : forall p s m e, short p -> canon m e -> normal m ->
  (Qabs (fmag (rd p (S754_finite s m e)) - qm m e) <= (51 # 100) * bpow 10 (- Z.of_nat p) * qm m e)%Q.
Proof.
  intros p s m e Hp Hc Hn. destruct (rd_facts p s m e Hp Hc) as (_ & _ & _ & H). destruct (H Hn) as (H1 & H2 & _).
  apply Qabs_Qle_condition. split; lra.
Qed.
