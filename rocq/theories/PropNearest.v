(** Property C67: reals are read as the nearest double and written as the nearest
    decimal of the format's length, in both directions with ties to even. *)
From Coq Require Import String List NArith ZArith Bool QArith Qpower Qabs Lqa Lia.
Import ListNotations.
From Verif Require Import PyBase PyNum PyVal Tools Facts IntFacts QFacts FloatFacts DecFacts FloatText FloatExact DictFacts.
From Coq Require Import Lia.
Open Scope string_scope.
Open Scope list_scope.
Open Scope nat_scope.

(* ------------------------------------------------------------------ *)
(** ** What is claimed *)

(** The magnitude of a double; the infinities stand where the next larger double
    would be, 2^1024. *)
Definition place (f : float) : Q :=
  match f with
  | S754_finite _ m e => inject_Z (Zpos m) * (2 # 1) ^ e
  | S754_infinity _ => (2 # 1) ^ 1024
  | _ => 0
  end.
Definition even_mantissa (f : float) : Prop := match f with S754_finite _ m _ => Z.Even (Zpos m) | _ => True end.
Definition number (f : float) : Prop := f_valid f = true /\ f <> S754_nan.
(** IEEE 754 rounding to the nearest double, ties to even. *)
Definition nearest (x : Q) (f : float) : Prop :=
  number f /\ forall g, number g -> (Qabs (x - place f) <= Qabs (x - place g))%Q /\
    (Qabs (x - place f) == Qabs (x - place g) -> place f == place g \/ even_mantissa f)%Q.

(** A real number as text: sign, digits with or without a point, exponent. *)
Definition digit_list (ds : str) : Prop := Forall (fun c => 48 <= c <= 57)%N ds.
Definition digits_number (ds : str) : Z := fold_left (fun a c => 10 * a + (Z.of_N c - 48))%Z ds 0%Z.
Definition sign_of (t : str) (neg : bool) : Prop := (t = [] /\ neg = false) \/ (t = lit "+" /\ neg = false) \/ (t = lit "-" /\ neg = true).
Definition signed (neg : bool) (z : Z) : Z := if neg then (- z)%Z else z.
Definition exponent (t : str) (x : Z) : Prop :=
  (t = [] /\ x = 0%Z) \/
  exists c sg neg ds, t = c :: sg ++ ds /\ (c = 101 \/ c = 69)%N /\ sign_of sg neg /\ digit_list ds /\ ds <> [] /\ x = signed neg (digits_number ds).
Definition decimal (t : str) (neg : bool) (ds : str) (k : Z) : Prop :=
  exists sg ip pt fp ex x, t = sg ++ ip ++ pt ++ fp ++ ex /\ sign_of sg neg /\ digit_list ip /\ digit_list fp /\
    (pt = lit "." \/ pt = [] /\ fp = []) /\ ds = ip ++ fp /\ ds <> [] /\ exponent ex x /\ k = (x - Z.of_nat (length fp))%Z.
Definition decimal_value (ds : str) (k : Z) : Q := (inject_Z (digits_number ds) * (10 # 1) ^ k)%Q.

(* ------------------------------------------------------------------ *)
(** ** Rounding *)

Open Scope Z_scope.
Lemma rne_half : forall n d, 0 < d -> (Qabs (qv n d - inject_Z (rne n d)) == 1 # 2)%Q -> Z.even (rne n d) = true.
Proof.
  intros n d Hd H. assert (Hv := qv_mul n d Hd). assert (Pd := inject_pos d Hd).
  assert (Hdm := Z.div_mod n d ltac:(lia)). assert (Hm := Z.mod_pos_bound n d Hd).
  assert (E : 2 * n = 2 * rne n d * d + d \/ 2 * n = 2 * rne n d * d - d).
  { assert (A : (qv n d - inject_Z (rne n d) == 1 # 2 \/ qv n d - inject_Z (rne n d) == - (1 # 2))%Q).
    { revert H. apply Qabs_case; intros _ H; [left; exact H|right; lra]. }
    set (v := qv n d) in *. set (D := inject_Z d) in *.
    destruct A as [A|A]; [left|right]; apply Z.le_antisymm; rewrite Zle_Qle; rewrite ?i2, ?inject_Z_plus, ?inject_Z_mult; change (inject_Z 2) with (2 # 1)%Q;
      rewrite <- Hv; fold D; set (r := inject_Z (rne n d)) in *.
    1,2: assert (Ev : (v == r + (1 # 2))%Q) by lra; rewrite Ev; lra.
    all: assert (Ev : (v == r - (1 # 2))%Q) by lra; rewrite Ev; lra. }
  unfold rne in *. destruct (Z.compare_spec (2 * (n mod d)) d) as [C|C|C].
  - destruct (Z.even (n / d)) eqn:Ev; [exact Ev|]. rewrite Z.even_add, Ev. reflexivity.
  - exfalso. nia.
  - exfalso. nia.
Qed.

(** The multiple of b^e nearest to a value is as near as every number with p digits
    that lies on the grid of b^e or below the value's own power. *)
Lemma abs_between : forall x y z : Q, (z < y -> y <= x -> Qabs (x - y) < Qabs (x - z))%Q.
Proof. intros x y z H1 H2. rewrite !Qabs_pos by lra. lra. Qed.
Lemma grid_near : forall b p e n d n' d' j i, 2 <= b -> 0 < p -> 0 < n -> 0 < d -> scale b e n d = (n', d') -> 0 <= j < b ^ p ->
  e <= i \/ (bpow b (e + p - 1) <= qv n d)%Q ->
  let x := qv n d in let y := (inject_Z (rne n' d') * bpow b e)%Q in let z := (inject_Z j * bpow b i)%Q in
  (Qabs (x - y) <= Qabs (x - z))%Q /\ ((Qabs (x - y) == Qabs (x - z))%Q -> (y == z)%Q \/ Z.even (rne n' d') = true).
Proof.
  intros b p e n d n' d' j i Hb Hp Hn Hd Es Hj Hi x y z.
  destruct (scale_spec b _ _ _ _ _ Hb Hd Es) as (Hd' & Hn' & Hv). destruct (rne_err n' d' Hd') as [R1 R2].
  assert (Pu := bpow_pos b e Hb). set (q := rne n' d') in *. set (w := qv n' d') in *. set (u := bpow b e) in *.
  assert (On : forall k, (Qabs (x - y) <= Qabs (x - inject_Z k * u))%Q /\ ((Qabs (x - y) == Qabs (x - inject_Z k * u))%Q -> k = q \/ Z.even q = true)).
  { intro k. assert (A : forall k, (Qabs (x - inject_Z k * u) == Qabs (w - inject_Z k) * u)%Q).
    { intro k0. unfold x. rewrite <- Hv. rewrite <- (Qabs_pos u) at 3 by lra. rewrite <- Qabs_Qmult. apply Qabs_wd. ring. }
    unfold y. rewrite !A. assert (Hq : (Qabs (w - inject_Z q) <= 1 # 2)%Q) by (apply Qabs_Qle_condition; lra).
    destruct (Z.eq_dec k q) as [->|Ne]; [split; [lra|left; reflexivity]|].
    assert (Hk : (1 # 2 <= Qabs (w - inject_Z k))%Q).
    { destruct (Z_lt_le_dec k q) as [L|L].
      - assert (B : (inject_Z (k + 1) <= inject_Z q)%Q) by (apply inject_le; lia). rewrite inject_S in B. rewrite Qabs_pos; lra.
      - assert (B : (inject_Z (q + 1) <= inject_Z k)%Q) by (apply inject_le; lia). rewrite inject_S in B. rewrite Qabs_neg; lra. }
    split; [apply Qmult_le_compat_r; lra|]. intro E. right. apply rne_half; [assumption|]. fold w q. apply Qmult_inj_r in E; [|lra]. lra. }
  destruct (Z_le_gt_dec e i) as [Hei|Hei].
  - assert (Ez : (z == inject_Z (j * b ^ (i - e)) * u)%Q).
    { unfold z, u. rewrite inject_Z_mult, <- bpow_Z by lia. rewrite <- Qmult_assoc, <- bpow_add by assumption. replace (i - e + e) with i by lia. reflexivity. }
    rewrite Ez. destruct (On (j * b ^ (i - e))) as [O1 O2]. split; [exact O1|]. intro E. destruct (O2 E) as [<-|Ev]; [left; reflexivity|right; exact Ev].
  - destruct Hi as [Hi|Hi]; [lia|]. fold x in Hi.
    assert (Ep : (bpow b (e + p - 1) == inject_Z (b ^ (p - 1)) * u)%Q).
    { rewrite <- bpow_Z by lia. unfold u. rewrite <- bpow_add by assumption. replace (p - 1 + e) with (e + p - 1) by lia. reflexivity. }
    assert (Hz : (z < bpow b (e + p - 1))%Q).
    { unfold z. apply Qlt_le_trans with (inject_Z (b ^ p) * bpow b i)%Q.
      - apply Qmult_lt_compat_r; [apply bpow_pos; assumption|apply inject_lt; lia].
      - rewrite <- bpow_Z by lia. rewrite <- bpow_add by assumption. apply bpow_le; lia. }
    destruct (On (b ^ (p - 1))) as [O1 _]. rewrite <- Ep in O1. assert (B := abs_between x _ _ Hz Hi). split; [lra|]. intro E. lra.
Qed.

Lemma round64_place : forall s n d, 0 < n -> 0 < d -> rexp n d <= 971 -> forall n' d', scale 2 (rexp n d) n d = (n', d') ->
  number (round64 s n d) /\ (place (round64 s n d) == inject_Z (rne n' d') * bpow 2 (rexp n d))%Q /\
  (Z.even (rne n' d') = true -> even_mantissa (round64 s n d)).
Proof.
  intros s n d Hn Hd H971 n' d' Es. unfold round64. destruct (Z.eqb_spec n 0); [lia|].
  fold (rexp n d). set (e := rexp n d) in *. rewrite Es.
  destruct (flog_spec 2 n d ltac:(lia) Hn Hd) as [F1 F2].
  assert (Pe := bpow_pos 2 e ltac:(lia)).
  destruct (scale_spec 2 _ _ _ _ _ ltac:(lia) Hd Es) as (Hd' & Hn' & Hv). specialize (Hn' Hn).
  destruct (rne_err n' d' Hd') as [R1 R2].
  set (q := rne n' d') in *. set (w := qv n' d') in *. set (v := qv n d) in *. set (u := bpow 2 e) in *.
  assert (He : emin <= e /\ flog 2 n d - 52 <= e /\ (e = flog 2 n d - 52 \/ e = emin)) by (unfold e, rexp; lia).
  destruct He as (He1 & He2 & He3).
  assert (E53 : (bpow 2 (e + 53) == inject_Z (2 ^ 53) * u)%Q).
  { unfold u. rewrite bpow_add by lia. rewrite (bpow_Z 2 53) by lia. ring. }
  assert (E52 : (bpow 2 (e + 52) == inject_Z (2 ^ 52) * u)%Q).
  { unfold u. rewrite bpow_add by lia. rewrite (bpow_Z 2 52) by lia. ring. }
  assert (Hq1 : q <= 2 ^ 53).
  { apply rne_le; [assumption|]. fold w. apply Qnot_le_lt. intro H.
    assert (H1 : (inject_Z (2 ^ 53) * u <= w * u)%Q) by (apply Qmult_le_compat_r; lra).
    rewrite Hv, <- E53 in H1. assert (bpow 2 (flog 2 n d + 1) <= bpow 2 (e + 53))%Q by (apply bpow_le; lia). fold v in F2. lra. }
  assert (Hq0 : 0 <= q).
  { apply rne_ge; [assumption|]. fold w. assert (0 < w)%Q by (apply qv_pos; assumption). change (inject_Z 0) with 0%Q. lra. }
  assert (Hq2 : e <> emin -> 2 ^ 52 <= q).
  { intro Hne. apply rne_ge; [assumption|]. fold w. apply Qnot_le_lt. intro H.
    assert (H1 : (w * u <= (inject_Z (2 ^ 52) - (1 # 2)) * u)%Q) by (apply Qmult_le_compat_r; lra).
    assert (Hfe : flog 2 n d = e + 52) by (destruct He3; [lia|contradiction]).
    rewrite Hfe in F1. fold v in F1. rewrite E52 in F1. lra. }
  destruct (Z.eqb_spec q (2 ^ 53)) as [Eq|Nq].
  - assert (Eq2 : (inject_Z (Zpos (2 ^ 52)) * bpow 2 (e + 1) == inject_Z q * u)%Q).
    { rewrite bpow_S by lia. fold u. rewrite Eq. change (inject_Z (2 ^ 53)) with (inject_Z (Zpos (2 ^ 52)) * inject_Z 2)%Q. ring. }
    destruct (Z.ltb_spec 971 (e + 1)).
    + assert (e = 971) by lia. split; [split; [reflexivity|discriminate]|]. split; [|intros _; exact Logic.I].
      rewrite Eq, <- E53. replace (e + 53) with 1024 by lia. reflexivity.
    + change (2 ^ 52) with (Zpos (2 ^ 52)%positive). cbv iota beta. split; [split; [|discriminate]|].
      * apply valid_canon. unfold canon. unfold emin in *. split; [reflexivity|]. split; [lia|]. left. reflexivity.
      * split; [exact Eq2|]. intros _. exists (2 ^ 51). reflexivity.
  - destruct (Z.ltb_spec 971 e); [lia|]. destruct q as [|m|m] eqn:Em; [| |lia].
    + split; [split; [reflexivity|discriminate]|]. split; [|intros _; exact Logic.I]. cbn [place]. change (inject_Z 0) with 0%Q. ring.
    + split; [split; [|discriminate]|].
      * apply valid_canon. unfold canon. split; [lia|]. split; [lia|]. destruct (Z.eq_dec e emin); [right; assumption|left; auto].
      * split; [reflexivity|]. intro Ev. apply Z.even_spec. exact Ev.
Qed.

Lemma place_number : forall g, number g -> exists j i, 0 <= j < 2 ^ 53 /\ (emin <= i)%Z /\ (place g == inject_Z j * bpow 2 i)%Q.
Proof.
  intros [s|s| |s m e] [Hg Hn].
  - exists 0, emin. split; [lia|]. split; [lia|]. cbn [place]. change (inject_Z 0) with 0%Q. ring.
  - exists (2 ^ 52), 972. split; [lia|]. split; [unfold emin; lia|]. cbn [place]. change 1024 with (52 + 972). change (2 # 1)%Q with (inject_Z 2).
    fold (bpow 2 (52 + 972)). rewrite bpow_add by lia. rewrite (bpow_Z 2 52) by lia. reflexivity.
  - contradiction Hn. reflexivity.
  - apply valid_canon in Hg as (H1 & H2 & _). exists (Zpos m), e. split; [lia|]. split; [lia|]. reflexivity.
Qed.

Lemma round64_nearest : forall s n d, 0 <= n -> 0 < d -> nearest (qv n d) (round64 s n d).
Proof.
  intros s n d Hn0 Hd. destruct (Z.eq_dec n 0) as [->|Hnz].
  { unfold round64. rewrite Z.eqb_refl. split; [split; [reflexivity|discriminate]|]. intros g Hg. cbn [place].
    assert (E : (qv 0 d == 0)%Q) by (unfold qv; apply Qmult_0_l). rewrite E. split; [|right; exact Logic.I]. apply Qabs_nonneg. }
  assert (Hn : 0 < n) by lia. destruct (flog_spec 2 n d ltac:(lia) Hn Hd) as [F1 F2].
  destruct (Z_le_gt_dec (rexp n d) 971) as [He|He].
  - destruct (scale 2 (rexp n d) n d) as [n' d'] eqn:Es. destruct (round64_place s n d Hn Hd He n' d' Es) as (P1 & P2 & P3).
    split; [exact P1|]. intros g Hg. destruct (place_number g Hg) as (j & i & Hj & Hi & Eg).
    destruct (grid_near 2 53 (rexp n d) n d n' d' j i) as [G1 G2]; [lia|lia|assumption|assumption|exact Es|assumption| |].
    { destruct (Z_le_gt_dec (rexp n d) i) as [|Hgt]; [left; assumption|right]. assert (Ee : rexp n d = flog 2 n d - 52) by (unfold rexp in *; lia).
      replace (rexp n d + 53 - 1) with (flog 2 n d) by lia. exact F1. }
    rewrite P2, Eg. split; [exact G1|]. intro E. destruct (G2 E) as [Ey|Ev]; [left; exact Ey|right; exact (P3 Ev)].
  - assert (Ee : rexp n d = flog 2 n d - 52) by (unfold rexp, emin in *; lia).
    assert (Hv : (bpow 2 1024 <= qv n d)%Q) by (eapply Qle_trans; [|exact F1]; apply bpow_le; lia).
    assert (Ei : round64 s n d = S754_infinity s).
    { unfold round64. destruct (Z.eqb_spec n 0); [lia|]. fold (rexp n d). destruct (scale 2 (rexp n d) n d) as [n' d'].
      destruct (rne n' d' =? 2 ^ 53); [destruct (Z.ltb_spec 971 (rexp n d + 1))|destruct (Z.ltb_spec 971 (rexp n d))]; [reflexivity|lia|reflexivity|lia]. }
    rewrite Ei. split; [split; [reflexivity|discriminate]|]. intros g Hg. split; [|right; exact Logic.I].
    change (place (S754_infinity s)) with (bpow 2 1024).
    assert (Hp : (place g <= bpow 2 1024)%Q).
    { destruct g as [t|t| |t m e]; cbn [place]; [assert (P := bpow_pos 2 1024 ltac:(lia)); lra|apply Qle_refl|destruct Hg as [_ Hg]; contradiction Hg; reflexivity|].
      destruct Hg as [Hg _]. apply valid_canon in Hg. eapply Qle_trans; [apply (qm_max m e Hg)|]. assert (Q := q_max_lt). assert (P := bpow_pos 2 971 ltac:(lia)). lra. }
    rewrite !Qabs_pos by lra. lra.
Qed.

Lemma dec_round_best : forall p m e q k, 1 <= p -> dec_round p m e = (q, k) -> 10 ^ p <= q < 10 ^ (p + 1) /\
  forall j i, 0 <= j < 10 ^ (p + 1) ->
    (Qabs (qm m e - inject_Z q * bpow 10 (k - p)) <= Qabs (qm m e - inject_Z j * bpow 10 i))%Q /\
    ((Qabs (qm m e - inject_Z q * bpow 10 (k - p)) == Qabs (qm m e - inject_Z j * bpow 10 i))%Q ->
       (inject_Z q * bpow 10 (k - p) == inject_Z j * bpow 10 i)%Q \/ Z.Even q).
Proof.
  intros p m e q k Hp H. split; [apply (dec_round_spec p m e q k); [lia|assumption]|]. intros j i Hj. unfold dec_round in H. destruct (frac_of m e) as [n d] eqn:Ef.
  destruct (frac_of_spec _ _ _ _ Ef) as (Hn & Hd & Hx). destruct (flog_spec 10 n d ltac:(lia) Hn Hd) as [F1 F2]. set (k0 := flog 10 n d) in *.
  destruct (scale 10 (k0 - p) n d) as [n' d'] eqn:Es.
  destruct (grid_near 10 (p + 1) (k0 - p) n d n' d' j i) as [G1 G2]; [lia|lia|assumption|assumption|exact Es|assumption| |].
  { right. replace (k0 - p + (p + 1) - 1) with k0 by lia. exact F1. }
  assert (Ev : Z.even (rne n' d') = true -> Z.Even (rne n' d')) by apply Z.even_spec.
  rewrite Hx in G1, G2. destruct (Z.eqb_spec (rne n' d') (10 ^ (p + 1))) as [E|N]; apply pair_equal_spec in H as [<- <-].
  - assert (Eq : (inject_Z (10 ^ p) * bpow 10 (k0 + 1 - p) == inject_Z (rne n' d') * bpow 10 (k0 - p))%Q).
    { rewrite E, <- !bpow_Z by lia. rewrite <- !bpow_add by lia. replace (p + (k0 + 1 - p)) with (p + 1 + (k0 - p)) by lia. reflexivity. }
    rewrite Eq. split; [exact G1|]. intro A. destruct (G2 A) as [B|_]; [left; exact B|right]. exists (5 * 10 ^ (p - 1)).
    replace p with (1 + (p - 1)) at 1 by lia. rewrite Z.pow_add_r by lia. change (10 ^ 1) with 10. ring.
  - split; [exact G1|]. intro A. destruct (G2 A) as [B|B]; [left; exact B|right; exact (Ev B)].
Qed.

(* ------------------------------------------------------------------ *)
(** ** Text *)

Open Scope nat_scope.
Lemma digit_list_b : forall ds, digit_list ds -> forallb is_digit ds = true.
Proof.
  intros ds H. apply forallb_forall. unfold digit_list in H. rewrite Forall_forall in H. intros c Hc. specialize (H c Hc). unfold is_digit.
  apply andb_true_iff. split; apply N.leb_le; apply H.
Qed.
Lemma b_digit_list : forall ds, forallb is_digit ds = true -> digit_list ds.
Proof.
  intros ds H. unfold digit_list. rewrite Forall_forall. rewrite forallb_forall in H. intros c Hc. specialize (H c Hc). unfold is_digit in H.
  apply andb_true_iff in H as [H1 H2]. apply N.leb_le in H1. apply N.leb_le in H2. split; assumption.
Qed.
Lemma span_pre : forall f a r, forallb f a = true -> match r with c :: _ => f c = false | [] => True end -> span f (a ++ r) = (a, r).
Proof.
  intros f a r Ha Hr. induction a as [|c a IH]; cbn [app].
  - destruct r as [|c r]; [reflexivity|]. cbn [span]. rewrite Hr. reflexivity.
  - cbn [forallb] in Ha. apply andb_true_iff in Ha as [Hc Ha]. cbn [span]. rewrite Hc, IH by assumption. reflexivity.
Qed.
Lemma exponent_read : forall ex x, exponent ex x -> parse_exp ex = Some x /\
  match ex with c :: _ => is_digit c = false /\ (c =? 46)%N = false | [] => True end.
Proof.
  intros ex x [[-> ->]|(c & sg & neg & ds & -> & Hc & Hs & Hd & Hn & ->)]; [split; [reflexivity|exact Logic.I]|].
  apply digit_list_b in Hd. split; [|destruct Hc as [-> | ->]; split; reflexivity].
  assert (Hcc : ((c =? 101) || (c =? 69))%N = true) by (destruct Hc as [-> | ->]; reflexivity). unfold parse_exp. rewrite Hcc.
  assert (Rs : read_sign (sg ++ ds) = (neg, ds)).
  { destruct Hs as [[-> ->]|[[-> ->]|[-> ->]]]; [|reflexivity|reflexivity]. destruct ds as [|a ds]; [contradiction|]. cbn [app read_sign].
    cbn [forallb] in Hd. apply andb_true_iff in Hd as [Ha _]. rewrite (is_digit_not a 45 Ha eq_refl), (is_digit_not a 43 Ha eq_refl). reflexivity. }
  rewrite Rs, span_all by assumption. destruct ds as [|a ds]; [contradiction|]. destruct neg; reflexivity.
Qed.
Lemma number_chars : forall c, (48 <= c <= 57 \/ c = 43 \/ c = 45 \/ c = 46 \/ c = 101 \/ c = 69)%N -> negb (is_ws c) = true /\ negb (c =? 95)%N = true.
Proof.
  intros c H. apply and_comm. split; [destruct (N.eqb_spec c 95) as [->|]; [lia|reflexivity]|].
  apply fltch_nonws. destruct H as [H|[->|[->|[->|[->| ->]]]]]; try reflexivity.
  apply digit_fltch. unfold is_digit. apply andb_true_iff. split; apply N.leb_le; apply H.
Qed.
Lemma decimal_chars : forall t neg ds k, decimal t neg ds k -> Forall (fun c => 48 <= c <= 57 \/ c = 43 \/ c = 45 \/ c = 46 \/ c = 101 \/ c = 69)%N t.
Proof.
  intros t neg ds k (sg & ip & pt & fp & ex & x & -> & Hs & Hi & Hf & Hp & _ & _ & He & _).
  assert (Sg : forall s n, sign_of s n -> Forall (fun c => 48 <= c <= 57 \/ c = 43 \/ c = 45 \/ c = 46 \/ c = 101 \/ c = 69)%N s).
  { intros s n [[-> _]|[[-> _]|[-> _]]]; repeat constructor; lia. }
  assert (Dg : forall l, digit_list l -> Forall (fun c => 48 <= c <= 57 \/ c = 43 \/ c = 45 \/ c = 46 \/ c = 101 \/ c = 69)%N l).
  { intros l Hl. eapply Forall_impl; [|exact Hl]. intros c Hc. left. exact Hc. }
  repeat (apply Forall_app; split); [eapply Sg; exact Hs|apply Dg; exact Hi| |apply Dg; exact Hf|].
  - destruct Hp as [-> |[-> _]]; repeat constructor; lia.
  - destruct He as [[-> _]|(c & sg' & neg' & ds' & -> & Hc & Hs' & Hd' & _)]; [constructor|]. constructor; [lia|]. apply Forall_app. split; [eapply Sg; exact Hs'|apply Dg; exact Hd'].
Qed.
Lemma decimal_core : forall t neg ds k, decimal t neg ds k -> float_core t = Some (float_of_dec neg (digits_number ds) k).
Proof.
  intros t neg ds k H. assert (Hc := decimal_chars _ _ _ _ H). destruct H as (sg & ip & pt & fp & ex & x & Et & Hs & Hi & Hf & Hp & Ed & Hn & He & Ek).
  apply digit_list_b in Hi, Hf. destruct (exponent_read _ _ He) as [Px Hx].
  unfold float_core. rewrite rm_underscore_id by (apply forallb_forall; rewrite Forall_forall in Hc; intros c Hcc; apply (number_chars c (Hc c Hcc))).
  set (u := ip ++ pt ++ fp ++ ex) in *.
  assert (Hu : exists c r, u = c :: r /\ (is_digit c = true \/ c = 46%N)).
  { unfold u. destruct ip as [|c ip]; [|exists c; eexists; split; [reflexivity|]; left; cbn [forallb] in Hi; apply andb_true_iff in Hi; apply Hi].
    destruct Hp as [-> |[-> ->]]; [|contradiction Hn; subst ds; reflexivity]. exists 46%N. eexists. split; [reflexivity|]. right. reflexivity. }
  destruct Hu as (c & r & Eu & Hcu).
  assert (Rs : read_sign t = (neg, u)).
  { rewrite Et. destruct Hs as [[-> ->]|[[-> ->]|[-> ->]]]; [|reflexivity|reflexivity]. cbn [app]. rewrite Eu. cbn [read_sign].
    destruct Hcu as [Hcu| ->]; [|reflexivity]. rewrite (is_digit_not c 45 Hcu eq_refl), (is_digit_not c 43 Hcu eq_refl). reflexivity. }
  rewrite Rs.
  assert (Hlow : forall w t, (w = 105 \/ w = 110)%N -> leqb (lower u) (w :: t) = false).
  { intros w tt Hw. rewrite Eu. unfold lower. cbn [map leqb]. replace (lower_char c) with c.
    - destruct (N.eqb_spec c w) as [->|]; [|reflexivity]. exfalso. destruct Hcu as [Hcu|Hcu]; [|lia]. unfold is_digit in Hcu. apply andb_true_iff in Hcu as [_ Hcu]. apply N.leb_le in Hcu. lia.
    - unfold lower_char. destruct (N.leb_spec 65 c); [|reflexivity]. destruct Hcu as [Hcu|Hcu]; [|lia]. unfold is_digit in Hcu. apply andb_true_iff in Hcu as [_ Hcu]. apply N.leb_le in Hcu. lia. }
  change (lit "inf") with (105%N :: lit "nf"). change (lit "infinity") with (105%N :: lit "nfinity"). change (lit "nan") with (110%N :: lit "an").
  rewrite !Hlow by auto. cbn [orb]. unfold float_unsigned, u.
  assert (Stop : match ex with c :: _ => is_digit c = false | [] => True end) by (destruct ex; [exact Logic.I|apply Hx]).
  destruct Hp as [-> |[-> ->]].
  - rewrite span_pre; [|assumption|reflexivity]. change (lit "." ++ fp ++ ex) with (46%N :: fp ++ ex). cbv iota. change (46 =? 46)%N with true. cbv iota. rewrite span_pre by assumption.
    rewrite <- Ed. destruct ds as [|a ds]; [contradiction|]. rewrite Px, Ek. reflexivity.
  - cbn [app]. rewrite span_pre by assumption. destruct ex as [|a ex].
    + cbn [app] in *. rewrite <- Ed. destruct ds as [|c' ds]; [contradiction|]. rewrite Px, Ek. reflexivity.
    + destruct Hx as [_ Hx]. rewrite Hx. rewrite <- Ed. destruct ds as [|c' ds]; [contradiction|]. rewrite Px, Ek. reflexivity.
Qed.

(* ------------------------------------------------------------------ *)
(** ** C67 *)

Lemma digits_nonneg : forall ds, digit_list ds -> (0 <= digits_number ds)%Z.
Proof.
  intros ds H. unfold digits_number. assert (G : forall l a, digit_list l -> (0 <= a)%Z -> (0 <= fold_left (fun a c => 10 * a + (Z.of_N c - 48)) l a)%Z).
  { clear. induction l as [|c l IH]; intros a H Ha; [exact Ha|]. inversion H; subst. cbn [fold_left]. apply IH; [assumption|lia]. }
  apply G; [assumption|lia].
Qed.
Lemma nearest_wd : forall x y f, (x == y)%Q -> nearest x f -> nearest y f.
Proof. intros x y f E [H1 H2]. split; [exact H1|]. intros g Hg. rewrite <- E. apply H2. exact Hg. Qed.
Lemma dec_nearest : forall neg m k, (0 <= m)%Z -> nearest (inject_Z m * bpow 10 k) (float_of_dec neg m k) /\ fsign (float_of_dec neg m k) = neg.
Proof.
  intros neg m k Hm. assert (Sg : forall n d, fsign (round64 neg n d) = neg).
  { intros n d. unfold round64. destruct (n =? 0)%Z; [reflexivity|]. destruct (scale 2 _ n d) as [n' d']. destruct (rne n' d' =? 2 ^ 53)%Z; cbv beta iota.
    - destruct (971 <? _)%Z; reflexivity.
    - destruct (971 <? _)%Z; [reflexivity|]. destruct (rne n' d'); reflexivity. }
  destruct (Z.eq_dec m 0) as [->|Hz].
  - assert (E : exists d, (0 < d)%Z /\ float_of_dec neg 0 k = round64 neg 0 d).
    { unfold float_of_dec. destruct (Z.leb_spec 0 k); [exists 1%Z|exists (10 ^ (- k))%Z]; (split; [|reflexivity]); [lia|apply Z.pow_pos_nonneg; lia]. }
    destruct E as (d & Hd & ->). split; [|apply Sg]. eapply nearest_wd; [|apply (round64_nearest neg 0 d); [lia|exact Hd]].
    unfold qv. change (inject_Z 0) with 0%Q. unfold Qdiv. ring.
  - destruct (float_of_dec_frac neg m k ltac:(lia)) as (n & d & Hn & Hd & -> & Hv). split; [|apply Sg].
    eapply nearest_wd; [exact Hv|]. apply round64_nearest; [lia|assumption].
Qed.

(** Reading: the sign of the text and the double nearest to its value. *)
Theorem C67_read : forall t neg ds k a b, decimal t neg ds k -> forallb is_ws_num a = true -> forallb is_ws_num b = true ->
  exists f, py_float (a ++ t ++ b) = Ok f /\ nearest (decimal_value ds k) f /\ fsign f = neg.
Proof.
  intros t neg ds k a b H Ha Hb. exists (float_of_dec neg (digits_number ds) k). split.
  - unfold py_float, strip_num. rewrite strip_by_pre by assumption. rewrite strip_by_post by assumption. rewrite strip_by_nonws.
    + rewrite (decimal_core _ _ _ _ H). reflexivity.
    + assert (Hc := decimal_chars _ _ _ _ H). apply forallb_forall. rewrite Forall_forall in Hc. intros c Hcc. destruct (number_chars c (Hc c Hcc)) as [Hw _]. unfold is_ws_num. destruct (is_ws c); [discriminate|reflexivity].
  - destruct H as (sg & ip & pt & fp & ex & x & _ & _ & Hi & Hf & _ & Ed & _). apply dec_nearest. apply digits_nonneg. subst ds. apply Forall_app. split; assumption.
Qed.
Print Assumptions C67_read.

(** Writing with %w.pe: p+1 digits, the first one not zero, and no number with so
    many digits is nearer to the double. *)
Theorem C67_written : forall w p s m e text, 1 <= p -> f_valid (S754_finite s m e) = true ->
  fmt_specs [FExp w p] [VFloat (S754_finite s m e)] = Ok text ->
  exists pad t ds k, text = repeat blank pad ++ t /\ (pad = 0 \/ length text = w) /\ decimal t s ds k /\ length ds = S p /\ hd 48%N ds <> 48%N /\
    forall j i, (0 <= j < 10 ^ (Z.of_nat p + 1))%Z ->
      (Qabs (place (S754_finite s m e) - decimal_value ds k) <= Qabs (place (S754_finite s m e) - inject_Z j * (10 # 1) ^ i))%Q /\
      (Qabs (place (S754_finite s m e) - decimal_value ds k) == Qabs (place (S754_finite s m e) - inject_Z j * (10 # 1) ^ i) ->
         decimal_value ds k == inject_Z j * (10 # 1) ^ i \/ Z.Even (digits_number ds))%Q.
Proof.
  intros w p s m e text Hp Hf Ht. assert (E : text = rjust w (fmt_e false p (S754_finite s m e))).
  { cbn [fmt_specs fmt_float_arg rbind] in Ht. rewrite app_nil_r in Ht. congruence. }
  cbn [fmt_e] in E. destruct (dec_round (Z.of_nat p) m e) as [q k] eqn:Ed. destruct (dec_round_best (Z.of_nat p) m e q k ltac:(lia) Ed) as [Hq Hb].
  destruct (mant_digits p q Hq) as [[Hm1 Hm2] Hv]. set (ds := pad0 (S p) (dec_nat q)) in *.
  set (t := sign_text s ++ mant_text p q ++ exp_text false k) in *.
  exists (w - length t), t, ds, (k - Z.of_nat p)%Z.
  split; [exact E|]. split.
  { destruct (Nat.le_gt_cases w (length t)); [left; lia|right]. rewrite E. apply rjust_length. lia. }
  split; [|split; [exact Hm2|split]].
  - destruct ds as [|c r] eqn:Eds; [discriminate Hm2|]. cbn [forallb] in Hm1. apply andb_true_iff in Hm1 as [Hc Hr].
    destruct (exp_digits false k) as (es & Ee & He1 & He2 & He3 & _).
    exists (sign_text s), [c], (lit "."), r, (exp_text false k), k.
    split. { unfold t, mant_text. fold ds. rewrite Eds. destruct p as [|p]; [lia|]. reflexivity. }
    split; [destruct s; [right; right|left]; split; reflexivity|]. split; [apply b_digit_list; cbn [forallb]; rewrite Hc; reflexivity|]. split; [apply b_digit_list; assumption|].
    split; [left; reflexivity|]. split; [reflexivity|]. split; [discriminate|]. split.
    + right. exists 101%N, [if (k <? 0)%Z then 45%N else 43%N], (k <? 0)%Z, es. rewrite Ee. split; [reflexivity|]. split; [left; reflexivity|].
      split; [destruct (k <? 0)%Z; [right; right|right; left]; split; reflexivity|]. split; [apply b_digit_list; assumption|]. split; [intros ->; cbn in He3; lia|].
      change (digits_number es) with (digits_val es). rewrite He2. unfold signed. destruct (Z.ltb_spec k 0); lia.
    + cbn [length] in Hm2. f_equal. f_equal. lia.
  - intro H0. destruct ds as [|c r]; [discriminate Hm2|]. cbn [hd] in H0. subst c. cbn [length] in Hm2. cbn [forallb] in Hm1. apply andb_true_iff in Hm1 as [_ Hr].
    assert (B : forall l a, forallb is_digit l = true -> (0 <= a)%Z -> (fold_left (fun a c => 10 * a + digit_val c) l a < (a + 1) * 10 ^ Z.of_nat (length l))%Z).
    { clear. induction l as [|c l IH]; intros a Hl Ha; [cbn; lia|]. cbn [forallb] in Hl. apply andb_true_iff in Hl as [Hc Hl]. unfold is_digit in Hc. apply andb_true_iff in Hc as [C1 C2].
      apply N.leb_le in C1. apply N.leb_le in C2. cbn [fold_left length]. eapply Z.lt_le_trans; [apply IH; [exact Hl|unfold digit_val; lia]|].
      rewrite Nat2Z.inj_succ, Z.pow_succ_r by lia. assert (0 < 10 ^ Z.of_nat (length l))%Z by (apply Z.pow_pos_nonneg; lia). unfold digit_val. nia. }
    specialize (B r 0%Z Hr ltac:(lia)). change (digits_val (48%N :: r)) with (fold_left (fun a c => 10 * a + digit_val c)%Z r 0%Z) in Hv. injection Hm2 as Hm2. rewrite Hm2 in B. lia.
  - intros j i Hj. specialize (Hb j i Hj). unfold decimal_value. change (digits_number ds) with (digits_val ds). rewrite Hv. exact Hb.
Qed.
Print Assumptions C67_written.

(** An int used as a real. *)
Theorem C67_int : forall z f, py_float_of_int z = Ok f -> nearest (inject_Z (Z.abs z)) f /\ fsign f = (z <? 0)%Z.
Proof.
  intros z f H. destruct (dec_nearest (z <? 0)%Z (Z.abs z) 0 (Z.abs_nonneg z)) as [N S].
  assert (E : float_of_dec (z <? 0)%Z (Z.abs z) 0 = float_of_Z z).
  { unfold float_of_dec, float_of_Z. cbn [Z.leb Z.compare]. change (10 ^ 0)%Z with 1%Z. rewrite Z.mul_1_r. reflexivity. }
  rewrite E in *. unfold py_float_of_int in H. destruct (float_of_Z z); inversion H; subst; (split; [|exact S]); (eapply nearest_wd; [|exact N]); rewrite bpow_0; ring.
Qed.
Print Assumptions C67_int.

(** A tie in reading (2^53 + 1) and in writing, and a number beyond the range. *)
Example C67_example :
  decimal (lit "-1.25E+02") true (lit "125") 0 /\ decimal (lit "9007199254740993") false (lit "9007199254740993") 0 /\ decimal (lit "+.5e-400") false (lit "5") (-401) /\
  py_float (lit "9007199254740993") = Ok (S754_finite false (2 ^ 52) 1) /\ py_float (lit " 1e400 ") = Ok (S754_infinity false) /\
  fmt_specs [FExp 13 5] [VFloat (float_of_Z 1234565)] = Ok (lit "  1.23456e+06") /\ fmt_specs [FExp 13 5] [VFloat (float_of_Z 1234575)] = Ok (lit "  1.23458e+06") /\
  f_valid (float_of_Z 1234565) = true.
Proof.
  assert (D : forall l, forallb is_digit l = true -> digit_list l) by exact b_digit_list.
  split; [|split; [|split]].
  - exists (lit "-"), (lit "1"), (lit "."), (lit "25"), (lit "E+02"), 2%Z. split; [reflexivity|]. split; [right; right; split; reflexivity|].
    split; [apply D; reflexivity|]. split; [apply D; reflexivity|]. split; [left; reflexivity|]. split; [reflexivity|]. split; [discriminate|]. split; [|reflexivity].
    right. exists 69%N, (lit "+"), false, (lit "02"). split; [reflexivity|]. split; [right; reflexivity|]. split; [right; left; split; reflexivity|].
    split; [apply D; reflexivity|]. split; [discriminate|reflexivity].
  - exists [], (lit "9007199254740993"), [], [], [], 0%Z. split; [reflexivity|]. split; [left; split; reflexivity|].
    split; [apply D; reflexivity|]. split; [apply D; reflexivity|]. split; [right; split; reflexivity|]. split; [reflexivity|]. split; [discriminate|]. split; [left; split; reflexivity|reflexivity].
  - exists (lit "+"), [], (lit "."), (lit "5"), (lit "e-400"), (-400)%Z. split; [reflexivity|]. split; [right; left; split; reflexivity|].
    split; [apply D; reflexivity|]. split; [apply D; reflexivity|]. split; [left; reflexivity|]. split; [reflexivity|]. split; [discriminate|]. split; [|reflexivity].
    right. exists 101%N, (lit "-"), true, (lit "400"). split; [reflexivity|]. split; [left; reflexivity|]. split; [right; right; split; reflexivity|].
    split; [apply D; reflexivity|]. split; [discriminate|reflexivity].
  - do 4 (split; [vm_compute; reflexivity|]). vm_compute. reflexivity.
Qed.
