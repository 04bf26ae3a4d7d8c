(** Property C74: which number, text or truth value a Python value stands for when
    it is written, compared or tested; rounding to a double has one result. *)
From Coq Require Import String List NArith ZArith Bool QArith Qpower Qabs Lqa Lia.
Import ListNotations.
From Verif Require Import PyBase PyNum PyVal Tools Facts IntFacts QFacts FloatFacts DecFacts FloatText FloatExact DictFacts PropNearest PropNumeral Accept.
From Coq Require Import Lia.
Open Scope string_scope.
Open Scope list_scope.
Open Scope nat_scope.

(* ------------------------------------------------------------------ *)
(** ** What is claimed *)

(** The rational number a finite double stands for. *)
Definition finite (f : float) : Prop := match f with S754_zero _ | S754_finite _ _ _ => True | _ => False end.
Definition float_number (f : float) : Q := if fsign f then (- place f)%Q else place f.
(** [z] is [q] without its fraction. *)
Definition whole_part (q : Q) (z : Z) : Prop :=
  (inject_Z (Z.abs z) <= Qabs q < inject_Z (Z.abs z) + 1)%Q /\ ((0 < z)%Z -> (0 < q)%Q) /\ ((z < 0)%Z -> (q < 0)%Q).
Definition bit (b : bool) : Z := if b then 1%Z else 0%Z.
(** What [%i] writes. *)
Definition int_value (v : pyval) (z : Z) : Prop :=
  match v with
  | VInt n => z = n
  | VBool b => z = bit b
  | VFloat f => finite f /\ whole_part (float_number f) z
  | _ => False
  end.
(** The double for an integer; above the limit there is none. *)
Definition int_double (n : Z) (f : float) : Prop :=
  (Z.abs n < real_limit)%Z /\ nearest (inject_Z (Z.abs n)) f /\ fsign f = (n <? 0)%Z.
(** What [%e] writes. *)
Definition real_value (v : pyval) (f : float) : Prop :=
  match v with
  | VFloat g => f = g
  | VInt n => int_double n f
  | VBool b => int_double (bit b) f
  | _ => False
  end.
(** The usual decimal notation of an integer: no plus sign, no leading zeros. *)
Definition notation (s : str) (z : Z) : Prop :=
  exists ds, s = (if (z <? 0)%Z then lit "-" else []) ++ ds /\ digit_list ds /\ ds <> [] /\ digits_number ds = Z.abs z /\
    forall r, ds = 48%N :: r -> r = [].
(** What [%s] writes. *)
Definition text_value (v : pyval) (s : str) : Prop :=
  match v with
  | VStr t => s = t
  | VInt z => notation s z
  | VBool true => s = lit "True"
  | VBool false => s = lit "False"
  | VNone => s = lit "None"
  | _ => False
  end.
(** What [if v] takes for false; arrays are not tested. *)
Definition float_zero (f : float) : Prop := exists s, f = S754_zero s.
Definition false_value (v : pyval) : Prop :=
  match v with
  | VNone => True
  | VBool b => b = false
  | VInt z => z = 0%Z
  | VFloat f => float_zero f
  | VCplx a b => float_zero a /\ float_zero b
  | VStr s => s = []
  | VList l => l = []
  | VDict d => d = []
  | VArr _ _ | VArr2 _ _ => False
  end.
Definition tested (v : pyval) : Prop := match v with VArr _ _ | VArr2 _ _ => False | _ => True end.
(** What [v == n] takes for true. *)
Definition float_is (f : float) (n : Z) : Prop := finite f /\ (float_number f == inject_Z n)%Q.
Definition equals (v : pyval) (n : Z) : Prop :=
  match v with
  | VInt z => z = n
  | VBool b => bit b = n
  | VFloat f => float_is f n
  | VCplx a b => float_is a n /\ float_is b 0
  | _ => False
  end.
Definition doubles (v : pyval) : Prop :=
  match v with VFloat f => f_valid f = true | VCplx a b => f_valid a = true /\ f_valid b = true | _ => True end.
(** The kinds numpy tells apart, the values an array of a kind can hold, and what
    they become in it. *)
Definition kind_is (dt : dtype) (v : pyval) : Prop :=
  match dt, v with DBool, VBool _ | DInt, VInt _ | DFloat, VFloat _ | DCplx, VCplx _ _ | DStr, VStr _ => True | _, _ => False end.
Definition becomes (dt : dtype) (v w : pyval) : Prop :=
  match dt with
  | DBool => kind_is DBool v /\ w = v
  | DInt => exists z, w = VInt z /\ (v = VInt z \/ exists b, v = VBool b /\ z = bit b)
  | DFloat => exists f, w = VFloat f /\ real_value v f
  | DCplx => kind_is DCplx v /\ w = v \/ exists f, w = VCplx f (S754_zero false) /\ real_value v f
  | DStr => kind_is DStr v /\ w = v
  end.
(** The array of a list: of the kind of one of the entries, which holds them all.
    Integers are those of 64 bits. *)
Definition array_of (l : list pyval) (dt : dtype) (l' : list pyval) : Prop :=
  (l = [] /\ dt = DFloat \/ exists v, In v l /\ kind_is dt v) /\ Forall2 (becomes dt) l l' /\
  forall z, In (VInt z) l -> (- 2 ^ 63 <= z < 2 ^ 63)%Z.

(* ------------------------------------------------------------------ *)
(** ** Rounding has one result *)

Open Scope Z_scope.
Lemma qm_apart : forall m e m' e', canon m e -> canon m' e' -> e < e' -> (qm m e < qm m' e')%Q.
Proof.
  intros m e m' e' (H1 & H2 & _) (H3 & H4 & H5) L. unfold qm. destruct H5 as [H5|H5]; [|lia].
  assert (E : (bpow 2 e' == inject_Z 2 * bpow 2 (e' - 1))%Q) by (rewrite <- bpow_S by lia; replace (e' - 1 + 1) with e' by lia; reflexivity).
  assert (B : (bpow 2 e <= bpow 2 (e' - 1))%Q) by (apply bpow_le; lia). assert (P := bpow_pos 2 e ltac:(lia)).
  eapply Qlt_le_trans; [apply Qmult_lt_compat_r with (y := inject_Z (2 ^ 53)); [exact P|apply inject_lt; exact H1]|].
  apply Qle_trans with (inject_Z (2 ^ 53) * bpow 2 (e' - 1))%Q; [rewrite !(Qmult_comm (inject_Z (2 ^ 53))); apply Qmult_le_compat_r; [exact B|discriminate]|].
  rewrite E. change (inject_Z (2 ^ 53)) with (inject_Z (2 ^ 52) * inject_Z 2)%Q. rewrite <- Qmult_assoc. apply Qmult_le_compat_r; [apply inject_le; exact H5|].
  assert (Q := bpow_pos 2 (e' - 1) ltac:(lia)). change (inject_Z 2) with (2 # 1)%Q. lra.
Qed.
Lemma qm_below : forall m e, canon m e -> (qm m e < bpow 2 1024)%Q.
Proof. intros m e H. assert (A := qm_max m e H). assert (Q := q_max_lt). assert (P := bpow_pos 2 971 ltac:(lia)). lra. Qed.
Lemma place_finite : forall s m e, place (S754_finite s m e) = qm m e.
Proof. reflexivity. Qed.
Lemma place_inf : forall s, place (S754_infinity s) = bpow 2 1024.
Proof. reflexivity. Qed.
Lemma same_place : forall f g, number f -> number g -> (place f == place g)%Q -> fsign f = fsign g -> f = g.
Proof.
  intros [s|s| |s m e] [t|t| |t m' e'] [Hf Nf] [Hg Ng] P S; try (contradiction Nf; reflexivity); try (contradiction Ng; reflexivity); cbn [fsign] in S; try (subst; reflexivity).
  - vm_compute in P. discriminate.
  - exfalso. assert (Q := qm_pos m' e'). rewrite place_finite in P. cbn [place] in P. rewrite <- P in Q. lra.
  - vm_compute in P. discriminate.
  - exfalso. apply valid_canon, qm_below in Hg. rewrite place_finite, place_inf in P. lra.
  - exfalso. assert (Q := qm_pos m e). rewrite place_finite in P. cbn [place] in P. rewrite P in Q. lra.
  - exfalso. apply valid_canon, qm_below in Hf. rewrite place_finite, place_inf in P. lra.
  - apply valid_canon in Hf. apply valid_canon in Hg. rewrite !place_finite in P. subst t.
    destruct (Z.lt_trichotomy e e') as [L|[<-|L]].
    + assert (Q := qm_apart _ _ _ _ Hf Hg L). lra.
    + f_equal. unfold qm in P. apply Qmult_inj_r in P; [|assert (Q := bpow_pos 2 e ltac:(lia)); lra]. unfold inject_Z, Qeq in P. cbn in P. lia.
    + assert (Q := qm_apart _ _ _ _ Hg Hf L). lra.
Qed.
Lemma even_gap : forall f g, number f -> number g -> even_mantissa f -> even_mantissa g -> (place f < place g)%Q ->
  exists h, number h /\ (place f < place h)%Q /\ (place h < place g)%Q.
Proof.
  intros f g [Hf Nf] [Hg Ng] Ef Eg L.
  destruct f as [s|s| |s m e]; [| |contradiction Nf; reflexivity|].
  - exists (S754_finite false 1 emin). split; [split; [reflexivity|discriminate]|]. split; [vm_compute; reflexivity|].
    destruct g as [t|t| |t m' e']; [cbn [place] in L; lra|vm_compute; reflexivity|contradiction Ng; reflexivity|].
    apply valid_canon in Hg as (G1 & G2 & _). rewrite !place_finite. unfold qm. destruct Eg as [k Ek].
    apply Qlt_le_trans with (inject_Z (Zpos m') * bpow 2 emin)%Q; [apply Qmult_lt_compat_r; [apply bpow_pos; lia|apply inject_lt; lia]|].
    rewrite !(Qmult_comm (inject_Z (Zpos m'))). apply Qmult_le_compat_r; [apply bpow_le; lia|discriminate].
  - exfalso. rewrite place_inf in L. destruct g as [t|t| |t m' e']; [cbn [place] in L; assert (P := bpow_pos 2 1024 ltac:(lia)); lra|rewrite place_inf in L; lra|contradiction Ng; reflexivity|].
    apply valid_canon, qm_below in Hg. rewrite place_finite in L. lra.
  - apply valid_canon in Hf. assert (Hf' := Hf). destruct Hf as (F1 & F2 & F3). destruct Ef as [k Ek].
    assert (C : canon (m + 1) e).
    { unfold canon. rewrite Pos2Z.inj_add. change (2 ^ 53) with (2 * 4503599627370496) in *. change (2 ^ 52) with 4503599627370496 in *. lia. }
    exists (S754_finite false (m + 1) e). split; [split; [apply valid_canon; exact C|discriminate]|]. rewrite !place_finite in *. assert (P := bpow_pos 2 e ltac:(lia)). split.
    { unfold qm. apply Qmult_lt_compat_r; [exact P|apply inject_lt; lia]. }
    destruct g as [t|t| |t m' e']; [cbn [place] in L; assert (Q := qm_pos m e); lra|rewrite place_inf; apply qm_below; exact C|contradiction Ng; reflexivity|].
    rewrite place_finite in *. apply valid_canon in Hg. destruct (Z.lt_ge_cases e' e) as [L'|G]; [assert (Q := qm_apart _ _ _ _ Hg Hf' L'); lra|].
    unfold qm in *. destruct Eg as [k' Ek']. assert (E : (bpow 2 e' == inject_Z (2 ^ (e' - e)) * bpow 2 e)%Q).
    { rewrite <- bpow_Z by lia. rewrite <- bpow_add by lia. replace (e' - e + e) with e' by lia. reflexivity. }
    rewrite E in *. rewrite Qmult_assoc in *. rewrite <- inject_Z_mult in *. apply Qmult_lt_compat_r; [exact P|]. apply inject_lt.
    assert (M : Zpos m < Zpos m' * 2 ^ (e' - e)).
    { apply inject_lt_inv. apply Qnot_le_lt. intro A. apply (Qmult_le_compat_r _ _ (bpow 2 e)) in A; [|lra]. lra. }
    rewrite Ek' in *. rewrite <- Z.mul_assoc in *. rewrite Pos2Z.inj_add. rewrite Ek in *. lia.
Qed.
(** One double is nearest. *)
Theorem C74_nearest : forall x f g, nearest x f -> nearest x g -> fsign f = fsign g -> f = g.
Proof.
  intros x f g [Nf Hf] [Ng Hg] S. apply same_place; [exact Nf|exact Ng| |exact S].
  destruct (Hf g Ng) as [A1 A2]. destruct (Hg f Nf) as [B1 B2]. assert (E : (Qabs (x - place f) == Qabs (x - place g))%Q) by lra.
  destruct (A2 E) as [P|Ef]; [exact P|]. destruct (B2 ltac:(symmetry; exact E)) as [P|Eg]; [symmetry; exact P|].
  assert (M : forall a b c : Q, (a < b -> b < c -> Qabs (x - a) == Qabs (x - c) -> Qabs (x - b) < Qabs (x - a))%Q).
  { intros a b c. do 3 apply Qabs_case; intros; lra. }
  destruct (Q_dec (place f) (place g)) as [[L|L]|P]; [| |exact P]; exfalso.
  - destruct (even_gap f g Nf Ng Ef Eg L) as (h & Nh & H1 & H2). assert (Q := M _ _ _ H1 H2 E). destruct (Hf h Nh) as [C _]. lra.
  - destruct (even_gap g f Ng Nf Eg Ef L) as (h & Nh & H1 & H2). assert (Q := M _ _ _ H1 H2 ltac:(symmetry; exact E)). destruct (Hg h Nh) as [C _]. lra.
Qed.
Print Assumptions C74_nearest.

(** A text is taken as a real exactly when it is a numeral, and as exactly that real. *)
Theorem C71_real_exact : forall s f, py_float s = Ok f <-> real_text s f.
Proof.
  intros s f. split; [apply C71_real|]. intros (a & t & u & b & -> & Ha & Hb & Hu & H).
  assert (R : exists g, real_text (a ++ t ++ b) g /\ py_float (a ++ t ++ b) = Ok g).
  { destruct (C71_real_read (a ++ t ++ b) f) as (g & G1 & G2); [exists a, t, u, b; auto|]. exists g. auto. }
  destruct R as (g & _ & G).
  assert (W : Forall (fun c => is_ws c = false) u).
  { destruct H as [(neg & ds & k & H & _)|(sg & neg & w & -> & Hs & H)].
    - eapply Forall_impl; [|eapply decimal_chars; exact H]. intros c Hc. destruct (number_chars c Hc) as [Hw _]. destruct (is_ws c); [discriminate|reflexivity].
    - apply Forall_app. split; [eapply sign_nonws; exact Hs|]. assert (L : Forall (fun c => (65 <= c <= 90 \/ 97 <= c <= 122)%N) w).
      { destruct H as [[[H|H] _]|[H _]]; (eapply spelled_chars; [|exact H]); letters. }
      eapply Forall_impl; [|exact L]. intros c Hc. cbn beta in Hc. destruct (is_ws c) eqn:Ew; [|reflexivity]. apply ws_In in Ew. vm_compute in Ew. lia. }
  rewrite G. f_equal. unfold py_float in G. rewrite strip_between in G; [|assumption|assumption|apply (ungrouped_chars _ t u Hu); [reflexivity|exact W]].
  rewrite (float_core_ungrouped t u Hu) in G.
  destruct H as [(neg & ds & k & H & N & S)|(sg & neg & w & -> & Hs & H)].
  - rewrite (decimal_core _ _ _ _ H) in G. injection G as <-. destruct (dec_value_nearest _ _ _ _ H) as [N' S'].
    eapply C74_nearest; [exact N'|exact N|congruence].
  - assert (F : forall c r, w = c :: r -> c <> 45%N /\ c <> 43%N).
    { destruct H as [[[H|H] _]|[H _]]; (eapply spelled_first; [|exact H]); letters. }
    unfold float_core in G. rewrite rm_underscore_id in G.
    + rewrite (read_sign_of sg neg w Hs F) in G. destruct H as [[[H| H] ->]|[H ->]].
      * apply inf_lower in H. rewrite H, leqb_refl in G. injection G as <-. reflexivity.
      * apply infinity_lower in H. rewrite H, leqb_refl, orb_true_r in G. injection G as <-. reflexivity.
      * apply nan_lower in H. rewrite H, leqb_refl in G. injection G as <-. reflexivity.
    + apply forallb_forall. intros c Hc. destruct (N.eqb_spec c 95) as [->|]; [|reflexivity]. exfalso. apply in_app_iff in Hc as [Hc|Hc].
      * destruct Hs as [[-> _]|[[-> _]|[-> _]]]; vm_compute in Hc; intuition discriminate.
      * assert (L : Forall (fun c => (65 <= c <= 90 \/ 97 <= c <= 122)%N) w).
        { destruct H as [[[H|H] _]|[H _]]; (eapply spelled_chars; [|exact H]); letters. }
        rewrite Forall_forall in L. specialize (L _ Hc). lia.
Qed.
Print Assumptions C71_real_exact.

(* ------------------------------------------------------------------ *)
(** ** Numbers and texts that values stand for *)

Lemma whole_part_unique : forall q y z, whole_part q y -> whole_part q z -> y = z.
Proof.
  intros q y z (A1 & A2 & A3) (B1 & B2 & B3). assert (E : Z.abs y = Z.abs z).
  { assert (H1 : Z.abs y < Z.abs z + 1) by (apply inject_lt_inv; rewrite inject_S; lra). assert (H2 : Z.abs z < Z.abs y + 1) by (apply inject_lt_inv; rewrite inject_S; lra). lia. }
  destruct (Z.lt_trichotomy y 0) as [L|[->|L]], (Z.lt_trichotomy z 0) as [M|[->|M]]; try lia.
  - specialize (A3 L). specialize (B2 M). lra.
  - specialize (A2 L). specialize (B3 M). lra.
Qed.
Lemma int_of_float : forall f z, py_int_of_float f = Ok z -> finite f /\ whole_part (float_number f) z.
Proof.
  intros [s|s| |s m e] z H; try discriminate; unfold py_int_of_float in H; (split; [exact Logic.I|]).
  - injection H as <-. unfold whole_part, float_number. cbn [fsign place]. destruct s; repeat split; try lia; discriminate.
  - destruct (frac_of m e) as [n d] eqn:E. destruct (frac_of_spec _ _ _ _ E) as (Hn & Hd & V). injection H as <-.
    assert (Q := qm_pos m e). assert (Hq : 0 <= n / d) by (apply Z.div_pos; lia).
    assert (B : (inject_Z (n / d) <= qm m e < inject_Z (n / d) + 1)%Q).
    { rewrite <- V. assert (X := qv_mul n d Hd). assert (Pd := inject_pos d Hd). assert (D := Z.div_mod n d ltac:(lia)). assert (M := Z.mod_pos_bound n d Hd). split.
      - apply qv_le_iff; [exact Hd|]. rewrite <- inject_Z_mult. apply inject_le. nia.
      - apply Qnot_le_lt. intro A. apply qv_le_iff in A; [|exact Hd]. rewrite <- inject_S, <- inject_Z_mult in A. rewrite <- Zle_Qle in A. nia. }
    unfold whole_part, float_number. cbn [fsign]. rewrite place_finite. destruct s.
    + rewrite Z.abs_opp, (Z.abs_eq _ Hq), Qabs_opp, Qabs_pos by lra. split; [exact B|]. split; [lia|]. intros _. lra.
    + rewrite (Z.abs_eq _ Hq), Qabs_pos by lra. split; [exact B|]. split; [intros _; lra|lia].
Qed.
Theorem C74_int : forall v z, fmt_int_arg v = Ok z <-> int_value v z.
Proof.
  intros v z. destruct v as [|b|n|f|? ?|s|l|dt l|dt l|d]; cbn [fmt_int_arg to_int int_value]; try (split; [discriminate|intros []]).
  - unfold bit. split; [intro H; injection H as <-; reflexivity|intros ->; reflexivity].
  - split; [intro H; injection H as <-; reflexivity|intros ->; reflexivity].
  - split; [apply int_of_float|]. intros [F W]. assert (E : exists y, py_int_of_float f = Ok y).
    { destruct f; try destruct F; unfold py_int_of_float; [eauto|]. destruct (frac_of m e). eauto. }
    destruct E as [y E]. rewrite E. f_equal. destruct (int_of_float _ _ E) as [_ W']. eapply whole_part_unique; eassumption.
Qed.
Print Assumptions C74_int.

Lemma int_double_iff : forall n f, py_float_of_int n = Ok f <-> int_double n f.
Proof.
  intros n f. unfold int_double. split.
  - intro H. split; [apply int_real; eauto|]. apply C67_int. exact H.
  - intros (L & N & S). apply int_real in L as [g G]. rewrite G. f_equal. destruct (C67_int _ _ G) as [N' S'].
    eapply C74_nearest; [exact N'|exact N|congruence].
Qed.
Theorem C74_real : forall v f, fmt_float_arg v = Ok f <-> real_value v f.
Proof.
  intros v f. destruct v as [|b|n|g|? ?|s|l|dt l|dt l|d]; cbn [fmt_float_arg real_value]; try (split; [discriminate|intros []]).
  - apply int_double_iff.
  - apply int_double_iff.
  - split; [intro H; injection H as <-; reflexivity|intros ->; reflexivity].
Qed.
Print Assumptions C74_real.

Lemma number_val : forall ds, digits_number ds = digits_val ds.
Proof. reflexivity. Qed.
Lemma no_leading : forall ds, digit_list ds -> ds <> [] -> (forall r, ds = 48%N :: r -> r = []) ->
  ds = lit "0" \/ 10 ^ (Z.of_nat (length ds) - 1) <= digits_number ds.
Proof.
  intros [|c r] H N Z0; [contradiction N; reflexivity|]. inversion H as [|? ? Hc Hr]; subst. cbn beta in Hc. destruct (N.eq_dec c 48) as [->|Nc]; [left; rewrite (Z0 r eq_refl); reflexivity|right].
  rewrite number_val. change (c :: r) with ([c] ++ r). rewrite digits_val_app2, app_length. cbn [length]. replace (Z.of_nat (1 + length r) - 1) with (Z.of_nat (length r)) by lia.
  apply digit_list_b in Hr. assert (B := digits_val_bound r Hr). assert (C : 1 <= digits_val [c]) by (unfold digits_val, digit_val; cbn [fold_left]; lia).
  assert (P : 0 < 10 ^ Z.of_nat (length r)) by (apply Z.pow_pos_nonneg; lia). nia.
Qed.
Lemma digits_determined : forall a b, length a = length b -> digit_list a -> digit_list b -> digits_val a = digits_val b -> a = b.
Proof.
  induction a as [|x a IH] using rev_ind; intros b L Ha Hb E; [destruct b; [reflexivity|discriminate]|].
  destruct b as [|y b] using rev_ind; [rewrite app_length in L; cbn in L; lia|]. clear IHb. rewrite !app_length in L. cbn in L.
  apply Forall_app in Ha as [Ha Hx]. apply Forall_app in Hb as [Hb Hy]. inversion Hx; subst. inversion Hy; subst. cbn beta in *. rewrite !digits_val_app in E. unfold digit_val in E.
  assert (x = y) by lia. subst y. f_equal. apply IH; [lia|assumption|assumption|lia].
Qed.
Lemma plain_digits : forall a b, digit_list a -> a <> [] -> (forall r, a = 48%N :: r -> r = []) -> digit_list b -> b <> [] -> (forall r, b = 48%N :: r -> r = []) ->
  digits_number a = digits_number b -> a = b.
Proof.
  intros a b Ha Na Za Hb Nb Zb E. apply digits_determined; [|assumption|assumption|exact E].
  assert (Ba := digits_val_bound a ltac:(apply digit_list_b; exact Ha)). assert (Bb := digits_val_bound b ltac:(apply digit_list_b; exact Hb)). rewrite !number_val in *.
  assert (La : (0 < length a)%nat) by (destruct a; [contradiction Na; reflexivity|cbn; lia]). assert (Lb : (0 < length b)%nat) by (destruct b; [contradiction Nb; reflexivity|cbn; lia]).
  assert (P : forall n, 0 < 10 ^ Z.of_nat n) by (intro; apply Z.pow_pos_nonneg; lia).
  destruct (no_leading a Ha Na Za) as [->|A], (no_leading b Hb Nb Zb) as [->|B]; [reflexivity| | |]; change digits_number with digits_val in *.
  - change (digits_val (lit "0")) with 0 in *. replace (Z.of_nat (length b) - 1) with (Z.of_nat (length b - 1)) in B by lia. specialize (P (length b - 1)%nat). lia.
  - change (digits_val (lit "0")) with 0 in *. replace (Z.of_nat (length a) - 1) with (Z.of_nat (length a - 1)) in A by lia. specialize (P (length a - 1)%nat). lia.
  - rewrite <- E in *. destruct (Nat.lt_trichotomy (length a) (length b)) as [L|[L|L]]; [|exact L|]; exfalso.
    + assert (10 ^ Z.of_nat (length a) <= 10 ^ (Z.of_nat (length b) - 1)) by (apply Z.pow_le_mono_r; lia). lia.
    + assert (10 ^ Z.of_nat (length b) <= 10 ^ (Z.of_nat (length a) - 1)) by (apply Z.pow_le_mono_r; lia). lia.
Qed.
Lemma dec_nat_plain : forall n, 0 <= n -> digit_list (dec_nat n) /\ dec_nat n <> [] /\ digits_number (dec_nat n) = n /\ forall r, dec_nat n = 48%N :: r -> r = [].
Proof.
  intros n Hn. split; [apply b_digit_list, dec_nat_digits; exact Hn|]. split; [apply dec_nat_nonnil; exact Hn|]. split; [apply dec_nat_val; exact Hn|].
  intros r E. destruct r as [|c r]; [reflexivity|exfalso]. assert (V := dec_nat_val n Hn). assert (D := dec_nat_digits n Hn). rewrite E in V, D. change (48%N :: c :: r) with ([48%N] ++ c :: r) in V.
  rewrite digits_val_app2 in V. change (digits_val [48%N]) with 0 in V. cbn [forallb] in D. apply andb_true_iff in D as [_ D]. assert (B := digits_val_bound (c :: r) D).
  assert (L : (length (dec_nat n) <= length (c :: r))%nat) by (apply dec_nat_length; [exact Hn|cbn; lia|lia]). rewrite E in L. cbn in L. lia.
Qed.
Lemma notation_iff : forall s z, dec_Z z = s <-> notation s z.
Proof.
  intros s z. assert (W : notation (dec_Z z) z).
  { unfold notation, dec_Z. destruct (Z.ltb_spec z 0).
    - exists (dec_nat (- z)). destruct (dec_nat_plain (- z) ltac:(lia)) as (A & B & C & D). split; [reflexivity|]. rewrite C. repeat split; try assumption. lia.
    - exists (dec_nat z). destruct (dec_nat_plain z ltac:(lia)) as (A & B & C & D). split; [reflexivity|]. rewrite C. repeat split; try assumption. lia. }
  split; [intros <-; exact W|]. intros (ds & -> & A & B & C & D). destruct W as (ds' & -> & A' & B' & C' & D'). f_equal. apply plain_digits; congruence || assumption.
Qed.
Theorem C74_text : forall v s, to_str v = Ok s <-> text_value v s.
Proof.
  assert (K : forall A (x y : A), Ok x = Ok y <-> y = x) by (intros; split; [intro H; injection H as ->; reflexivity|intros ->; reflexivity]).
  intros v s. destruct v as [|b|n|g|? ?|t|l|dt l|dt l|d]; cbn [to_str text_value]; try (split; [discriminate|intros []]).
  - apply K.
  - destruct b; apply K.
  - rewrite <- notation_iff. rewrite K. split; congruence.
  - apply K.
Qed.
Print Assumptions C74_text.

(* ------------------------------------------------------------------ *)
(** ** Tests and comparisons *)

Lemma f_eqb_iff : forall f g, f_eqb f g = true <-> float_zero f /\ float_zero g \/ f = g /\ f <> S754_nan.
Proof.
  intros f g. unfold f_eqb, SFeqb, SFcompare, float_zero.
  assert (NZ : forall (s : bool) m e, ~ exists t, S754_finite s m e = S754_zero t) by (intros s m e (t & E); discriminate).
  destruct f as [s|s| |s m e], g as [t|t| |t m' e'];
    try (split; [discriminate|intros [[(a & A) (b & B)]|[A B]]; try discriminate; contradiction B; reflexivity]; fail);
    try (destruct s; (split; [discriminate|intros [[(a & A) (b & B)]|[A B]]; discriminate]); fail);
    try (destruct t; (split; [discriminate|intros [[(a & A) (b & B)]|[A B]]; discriminate]); fail).
  - split; [intros _; left; eauto|reflexivity].
  - destruct s, t; (split; [first [discriminate|intros _; right; split; [reflexivity|discriminate]]|intros [[(a & A) _]|[A _]]; [discriminate|try discriminate; reflexivity]]).
  - assert (R : (e = e' /\ m = m' /\ s = t) <-> (exists q, S754_finite s m e = S754_zero q) /\ (exists q, S754_finite t m' e' = S754_zero q) \/ S754_finite s m e = S754_finite t m' e' /\ S754_finite s m e <> S754_nan).
    { split; [intros (-> & -> & ->); right; split; [reflexivity|discriminate]|intros [[A _]|[A _]]; [destruct (NZ _ _ _ A)|injection A; auto]]. }
    rewrite <- R. clear R. destruct s, t.
    + destruct (Z.compare_spec e e') as [->|L|L]; [|split; [discriminate|lia]..].
      change (Pos.compare_cont Eq m m') with (Pos.compare m m'). destruct (Pos.compare_spec m m') as [->|L|L]; [split; auto|split; [discriminate|intros (_ & -> & _); lia]..].
    + split; [discriminate|intros (_ & _ & A); discriminate].
    + split; [discriminate|intros (_ & _ & A); discriminate].
    + destruct (Z.compare_spec e e') as [->|L|L]; [|split; [discriminate|lia]..].
      change (Pos.compare_cont Eq m m') with (Pos.compare m m'). destruct (Pos.compare_spec m m') as [->|L|L]; [split; auto|split; [discriminate|intros (_ & -> & _); lia]..].
Qed.
Lemma f_eqb_zero : forall f, f_eqb f f_zero = true <-> float_zero f.
Proof.
  intro f. rewrite f_eqb_iff. split; [intros [[H _]|[-> _]]; [exact H|exists false; reflexivity]|]. intro H. left. split; [exact H|exists false; reflexivity].
Qed.
Lemma neg_iff : forall b (P : Prop), (b = true <-> P) -> (Ok (negb b) = Ok false <-> P) .
Proof. intros [] P H; cbn; split; intro A; try (injection A as A); try discriminate; tauto || (apply H in A; discriminate). Qed.
(** What is tested is true or false; which is false. *)
Theorem C74_truth : forall v, tested v -> (truthy v = Ok false <-> false_value v) /\ (truthy v = Ok true <-> ~ false_value v).
Proof.
  assert (K : forall b (P : Prop), (b = true <-> P) -> (Ok (negb b) = Ok false <-> P) /\ (Ok (negb b) = Ok true <-> ~ P)).
  { intros b P H. split; [apply neg_iff; exact H|]. destruct b; cbn; (split; [intro A; try discriminate A; intro p; apply H in p; discriminate p|]); intro A; [contradiction A; apply H; reflexivity|reflexivity]. }
  assert (L : forall A (l : list A), Nat.eqb (length l) 0 = true <-> l = []).
  { intros A l. rewrite Nat.eqb_eq. apply length_zero_iff_nil. }
  intros v T. destruct v as [|b|n|g|a b|t|l|dt l|dt l|d]; try destruct T; cbn [truthy false_value].
  - split; split; intro H; try discriminate; auto. contradiction H. exact Logic.I.
  - destruct b; split; split; intro H; try discriminate; auto; congruence.
  - apply K. apply Z.eqb_eq.
  - apply K. apply f_eqb_zero.
  - apply K. rewrite andb_true_iff, !f_eqb_zero. reflexivity.
  - apply K. apply L.
  - apply K. apply L.
  - apply K. apply L.
Qed.
Print Assumptions C74_truth.

Lemma place_Z : forall n, Z.abs n < 2 ^ 53 -> number (float_of_Z n) /\ finite (float_of_Z n) /\ (place (float_of_Z n) == inject_Z (Z.abs n))%Q /\ fsign (float_of_Z n) = (n <? 0).
Proof.
  intros n H. destruct (Z.eq_dec n 0) as [->|N]; [repeat split; discriminate|].
  destruct (float_of_Z_exact n H N) as (m & e & -> & C & Q & _). split; [split; [apply valid_canon; exact C|discriminate]|]. split; [exact Logic.I|]. split; [exact Q|reflexivity].
Qed.
Lemma float_is_iff : forall f n, f_valid f = true -> Z.abs n < 2 ^ 53 -> (f_eqb f (float_of_Z n) = true <-> float_is f n).
Proof.
  intros f n Hf Hn. destruct (place_Z n Hn) as (G1 & G2 & G3 & G4). set (g := float_of_Z n) in *.
  assert (V : (float_number g == inject_Z n)%Q).
  { unfold float_number. rewrite G4. destruct (Z.ltb_spec n 0); rewrite G3; [|rewrite Z.abs_eq by lia; reflexivity]. rewrite <- inject_Z_opp. rewrite Z.abs_neq by lia. rewrite Z.opp_involutive. reflexivity. }
  rewrite f_eqb_iff. unfold float_is. split.
  - intros [[(s & ->) (t & E)]|[-> _]]; [|split; assumption]. split; [exact Logic.I|]. rewrite <- V, E. unfold float_number. cbn [fsign place]. destruct s, t; reflexivity.
  - intros [F E].
    assert (P : (place f == inject_Z (Z.abs n))%Q).
    { assert (P : (0 <= place f)%Q) by (destruct f; try destruct F; [apply Qle_refl|assert (Q := qm_pos m e); rewrite place_finite; lra]). unfold float_number in E. destruct (fsign f).
      - assert (A : (inject_Z n <= 0)%Q) by lra. change 0%Q with (inject_Z 0) in A. rewrite <- Zle_Qle in A. rewrite Z.abs_neq by lia. rewrite inject_Z_opp. lra.
      - assert (A : (0 <= inject_Z n)%Q) by lra. change 0%Q with (inject_Z 0) in A. rewrite <- Zle_Qle in A. rewrite Z.abs_eq by lia. exact E. }
    destruct (Z.eq_dec n 0) as [Z0|Z0].
    + left. split.
      * destruct f as [s|s| |s m e]; try destruct F; [exists s; reflexivity|exfalso]. assert (Q := qm_pos m e). rewrite place_finite in P. subst n. change (inject_Z (Z.abs 0)) with 0%Q in P. lra.
      * subst n. exists false. reflexivity.
    + right. assert (E2 : f = g); [|split; [exact E2|rewrite E2; apply G1]]. apply same_place; [split; [exact Hf|destruct f; try destruct F; discriminate]|exact G1|rewrite P, G3; reflexivity|].
      rewrite G4. unfold float_number in E. destruct (Z.ltb_spec n 0) as [L|L].
      * destruct (fsign f); [reflexivity|exfalso]. rewrite P in E. unfold Qeq, inject_Z in E. cbn in E. lia.
      * destruct (fsign f); [exfalso|reflexivity]. rewrite P in E. unfold Qeq, inject_Z in E. cbn in E. lia.
Qed.
(** [v == n] compares numbers. *)
Theorem C74_equal : forall v n, doubles v -> Z.abs n < 2 ^ 53 -> (py_eqZ v n = true <-> equals v n).
Proof.
  intros v n D Hn. destruct v as [|b|z|f|a b|t|l|dt l|dt l|d]; cbn [py_eqZ equals]; try (split; [discriminate|intros []]).
  - apply Z.eqb_eq.
  - apply Z.eqb_eq.
  - apply float_is_iff; assumption.
  - destruct D as [Da Db]. rewrite andb_true_iff. rewrite (float_is_iff a n Da Hn). change f_zero with (float_of_Z 0). rewrite (float_is_iff b 0 Db) by reflexivity. reflexivity.
Qed.
Print Assumptions C74_equal.

(* ------------------------------------------------------------------ *)
(** ** Arrays of lists *)

Lemma cast_iff : forall dt v w, cast dt v = Ok w <-> becomes dt v w.
Proof.
  assert (K : forall A (x y : A), Ok x = Ok y <-> y = x) by (intros; split; [intro H; injection H as ->; reflexivity|intros ->; reflexivity]).
  assert (B : forall b f, int_double (bit b) f <-> f = float_of_Z (bit b)).
  { intros b f. rewrite <- int_double_iff. destruct b; cbn [bit]; rewrite py_float_of_int_ok by reflexivity; apply K. }
  assert (M : forall z (h : float -> pyval), (forall f g, h f = h g -> f = g) -> forall w, (do f <- py_float_of_int z ;; Ok (h f)) = Ok w <-> exists f, w = h f /\ int_double z f).
  { intros z h Hh w. destruct (py_float_of_int z) as [g|x] eqn:E; cbn [rbind].
    - rewrite K. split; [intros ->; exists g; split; [reflexivity|apply int_double_iff; exact E]|]. intros (f & -> & H). apply int_double_iff in H. congruence.
    - split; [discriminate|]. intros (f & _ & H). apply int_double_iff in H. congruence. }
  intros dt v w. destruct dt, v as [|b|n|g|a b|t|l|dt' l|dt' l|d]; cbn [cast becomes kind_is real_value];
    try (split; [discriminate|intros [[] _]]; fail); try (split; [discriminate|intros (f & _ & [])]; fail); try (split; [discriminate|intros [[[] _]|(f & _ & [])]]; fail);
    try (split; [discriminate|intros (f & _ & [H|(b' & H & _)]); discriminate H]; fail);
    try (rewrite K; split; [intro H; split; [exact Logic.I|exact H]|intros [_ H]; exact H]; fail).
  - rewrite K. fold (bit b). split; [intros ->; exists (bit b); split; [reflexivity|right; exists b; auto]|]. intros (z & -> & [H|(b' & H & ->)]); [discriminate|injection H as ->; reflexivity].
  - rewrite K. split; [intros ->; exists n; auto|]. intros (z & -> & [H|(b' & H & ->)]); [injection H as ->; reflexivity|discriminate].
  - rewrite K. fold (bit b). split; [intros ->; exists (float_of_Z (bit b)); split; [reflexivity|apply B; reflexivity]|]. intros (f & -> & H). apply B in H. rewrite H. reflexivity.
  - apply (M n VFloat). intros f g H. injection H as ->. reflexivity.
  - rewrite K. split; [intros ->; exists g; auto|intros (f & -> & ->); reflexivity].
  - rewrite K. fold (bit b). split; [intros ->; right; exists (float_of_Z (bit b)); split; [reflexivity|apply B; reflexivity]|]. intros [[[] _]|(f & -> & H)]. apply B in H. rewrite H. reflexivity.
  - rewrite (M n (fun f => VCplx f f_zero)) by (intros f g H; injection H as ->; reflexivity). split; [intro H; right; exact H|intros [[[] _]|H]; exact H].
  - rewrite K. split; [intros ->; right; exists g; auto|intros [[[] _]|(f & -> & ->)]; reflexivity].
  - rewrite K. split; [intros ->; left; auto|intros [[_ H]|(f & _ & [])]; exact H].
Qed.
Lemma kind_dtype : forall dt v, scalar_dtype v = Some dt <-> kind_is dt v.
Proof. intros dt v. destruct v, dt; cbn; split; intro H; try discriminate H; try destruct H; reflexivity || exact Logic.I. Qed.
Lemma list_dtype_sound : forall l dt, list_dtype l = Some dt -> (exists v, In v l /\ kind_is dt v) /\ Forall (fun v => exists k, kind_is k v /\ (dt_rank k <= dt_rank dt)%nat) l.
Proof.
  induction l as [|v l IH]; intros dt H; [discriminate|]. destruct l as [|u l].
  - cbn [list_dtype] in H. apply kind_dtype in H. split; [exists v; split; [left; reflexivity|exact H]|]. repeat constructor. exists dt. split; [exact H|lia].
  - change (list_dtype (v :: u :: l)) with (match scalar_dtype v, list_dtype (u :: l) with Some a, Some b => Some (dt_join a b) | _, _ => None end) in H.
    destruct (scalar_dtype v) as [a|] eqn:Ea; [|discriminate].
    destruct (list_dtype (u :: l)) as [b|] eqn:Eb; [|discriminate]. injection H as <-. apply kind_dtype in Ea. destruct (IH b eq_refl) as [(x & X1 & X2) F].
    unfold dt_join. destruct (Nat.ltb_spec (dt_rank a) (dt_rank b)) as [L|L].
    + split; [exists x; split; [right; exact X1|exact X2]|]. constructor; [exists a; split; [exact Ea|lia]|exact F].
    + split; [exists v; split; [left; reflexivity|exact Ea]|]. constructor; [exists a; split; [exact Ea|lia]|]. eapply Forall_impl; [|exact F]. intros y (k & K1 & K2). exists k. split; [exact K1|lia].
Qed.
Lemma list_dtype_some : forall l, l <> [] -> Forall (fun v => exists k, kind_is k v) l -> exists dt, list_dtype l = Some dt.
Proof.
  induction l as [|v l IH]; intros N H; [contradiction N; reflexivity|]. inversion H as [|? ? [k K] Hr]; subst. apply kind_dtype in K. destruct l as [|u l]; [exists k; exact K|].
  destruct (IH ltac:(discriminate) Hr) as [b Eb]. exists (dt_join k b). change (list_dtype (v :: u :: l)) with (match scalar_dtype v, list_dtype (u :: l) with Some a, Some b => Some (dt_join a b) | _, _ => None end). rewrite K, Eb. reflexivity.
Qed.
Lemma becomes_kind : forall dt v w, becomes dt v w -> exists k, kind_is k v /\ (dt_rank k <= dt_rank dt)%nat.
Proof.
  intros dt v w H. destruct (scalar_dtype v) as [k|] eqn:E.
  - exists k. apply kind_dtype in E. split; [exact E|]. apply cast_iff in H. destruct dt, v; try discriminate H; destruct k; try destruct E; cbn; lia.
  - exfalso. apply cast_iff in H. destruct dt, v; discriminate.
Qed.
Lemma rmap_casts : forall dt l l', rmap (cast dt) l = Ok l' <-> Forall2 (becomes dt) l l'.
Proof.
  intros dt l l'. split.
  - revert l'. unfold rmap. induction l as [|v l IH]; intros l' H; cbn [map rseq] in H; [injection H as <-; constructor|].
    destruct (cast dt v) as [w|x] eqn:E; [|discriminate]. cbn [rbind] in H. destruct (rseq (map (cast dt) l)) as [r|x]; [|discriminate]. cbn [rbind] in H. injection H as <-.
    constructor; [apply cast_iff; exact E|apply IH; reflexivity].
  - intro F. apply rmap_Forall2. induction F as [|? ? ? ? H]; constructor; [apply cast_iff; exact H|assumption].
Qed.
Lemma rank_inj : forall a b, dt_rank a = dt_rank b -> a = b.
Proof. intros [] []; cbn; intro H; reflexivity || discriminate. Qed.
(** A list becomes an array of the kind of one of its entries that can hold them
    all; the numbers are kept. *)
Theorem C74_array : forall l dt l', np_asarray (VList l) = Ok (dt, l') <-> array_of l dt l'.
Proof.
  intros l dt l'. unfold array_of. destruct l as [|v0 l0].
  { cbn [np_asarray]. split; [intro H; injection H as <- <-; split; [left; auto|split; [constructor|intros z []]]|]. intros [[[_ ->]|(v & [] & _)] [F _]]. inversion F; subst. reflexivity. }
  set (l := v0 :: l0). assert (Nl : l <> []) by discriminate.
  change (np_asarray (VList l)) with (if forallb in_int64 l then match list_dtype l with Some dt => do l' <- rmap (cast dt) l ;; Ok (dt, l') | None => Err Unmodelled end else Err Unmodelled).
  clearbody l.
  assert (B : forallb in_int64 l = true <-> forall z, In (VInt z) l -> (- 2 ^ 63 <= z < 2 ^ 63)%Z).
  { rewrite forallb_forall. split.
    - intros H z Hz. apply H in Hz. cbn [in_int64] in Hz. apply andb_true_iff in Hz as [A1 A2]. apply Z.leb_le in A1. apply Z.ltb_lt in A2. lia.
    - intros H v Hv. destruct v; try reflexivity. apply H in Hv. cbn [in_int64]. apply andb_true_iff. split; [apply Z.leb_le|apply Z.ltb_lt]; lia. }
  split.
  - intro H. destruct (forallb in_int64 l); [|discriminate]. destruct (list_dtype l) as [k|] eqn:E; [|discriminate]. destruct (rmap (cast k) l) as [r|x] eqn:R; [|discriminate]. cbn [rbind] in H. injection H as <- <-.
    destruct (list_dtype_sound _ _ E) as [X _]. split; [right; exact X|]. split; [apply rmap_casts; exact R|apply B; reflexivity].
  - intros [[[E _]|(v & I & K)] [F Z64]]; [contradiction|]. apply B in Z64. rewrite Z64.
    assert (Ks : Forall (fun v => exists k, kind_is k v /\ (dt_rank k <= dt_rank dt)%nat) l).
    { clear - F. induction F as [|? ? ? ? H]; constructor; [eapply becomes_kind; exact H|assumption]. }
    destruct (list_dtype_some l Nl) as [k E]; [eapply Forall_impl; [|exact Ks]; intros y (k & H & _); eauto|]. rewrite E.
    destruct (list_dtype_sound _ _ E) as [(u & U1 & U2) G].
    assert (Ek : k = dt).
    { apply rank_inj. rewrite Forall_forall in Ks, G. destruct (Ks u U1) as (a & A1 & A2). destruct (G v I) as (b & B1 & B2).
      apply kind_dtype in A1, B1, U2, K. assert (a = k) by congruence. assert (b = dt) by congruence. subst. lia. }
    subst k. apply rmap_casts in F. rewrite F. reflexivity.
Qed.
Print Assumptions C74_array.

(** [np.iscomplexobj]. *)
Definition complex_is (v : pyval) (c : bool) : Prop :=
  match v with
  | VCplx _ _ => c = true
  | VList l => exists dt l', array_of l dt l' /\ (c = true <-> dt = DCplx)
  | VArr dt _ | VArr2 dt _ => c = true <-> dt = DCplx
  | _ => c = false
  end.
Theorem C74_complex : forall v c, np_iscomplex v = Ok c <-> complex_is v c.
Proof.
  assert (K : forall A (x y : A), Ok x = Ok y <-> y = x) by (intros; split; [intro H; injection H as ->; reflexivity|intros ->; reflexivity]).
  assert (D : forall dt c, match dt with DCplx => Ok true | _ => Ok false end = Ok c <-> (c = true <-> dt = DCplx)).
  { intros dt c. destruct dt, c; split; intro H; try discriminate H; try reflexivity; try (split; intro A; (discriminate A || reflexivity)); destruct H as [H1 H2]; (discriminate (H1 eq_refl) || discriminate (H2 eq_refl)). }
  intros v c. destruct v as [|b|n|g|a b|t|l|dt l|dt l|d]; cbn [complex_is]; try apply K.
  - change (np_iscomplex (VList l)) with (do a <- np_asarray (VList l) ;; match fst a with DCplx => Ok true | _ => Ok false end).
    destruct (np_asarray (VList l)) as [[dt l']|x] eqn:E; cbn [rbind fst].
    + rewrite D. split; [intro H; exists dt, l'; split; [apply C74_array; exact E|exact H]|]. intros (dt2 & l2 & H & Hc). apply C74_array in H. rewrite E in H. injection H as <- <-. exact Hc.
    + split; [discriminate|]. intros (dt2 & l2 & H & Hc). apply C74_array in H. congruence.
  - change (np_iscomplex (VArr dt l)) with (match dt with DCplx => @Ok bool true | _ => Ok false end). apply D.
  - rewrite <- D. destruct dt; reflexivity.
Qed.
Print Assumptions C74_complex.

(* ------------------------------------------------------------------ *)
(** ** Entries and sections of lists *)

(** [l[i]]: counted from the front, or with a negative number from the end. *)
Theorem C74_entry : forall A (l : list A) i x, py_nth l i = Ok x <->
  exists a b, l = a ++ x :: b /\ (i = Z.of_nat (length a) \/ i = - Z.of_nat (length (x :: b))).
Proof.
  intros A l i x. unfold py_nth. set (n := Z.of_nat (length l)). set (j := if i <? 0 then i + n else i). split.
  - destruct ((j <? 0) || (n <=? j)) eqn:E; [discriminate|]. apply orb_false_iff in E as [E1 E2]. apply Z.ltb_ge in E1. apply Z.leb_gt in E2.
    destruct (nth_error l (Z.to_nat j)) as [y|] eqn:Ey; [|discriminate]. intro H. injection H as ->. apply nth_error_split in Ey as (a & b & -> & La). exists a, b. split; [reflexivity|].
    unfold j, n in *. rewrite app_length in *. cbn [length] in *. destruct (Z.ltb_spec i 0); lia.
  - intros (a & b & E & H). assert (Ej : j = Z.of_nat (length a)).
    { unfold j, n. rewrite E, app_length. cbn [length]. destruct H as [->| ->]; [destruct (Z.ltb_spec (Z.of_nat (length a)) 0); lia|]. cbn [length]. destruct (Z.ltb_spec (- Z.of_nat (S (length b))) 0); lia. }
    rewrite Ej. assert (L : n = Z.of_nat (length a) + Z.of_nat (S (length b))) by (unfold n; rewrite E, app_length; cbn [length]; lia).
    destruct (Z.ltb_spec (Z.of_nat (length a)) 0); [lia|]. destruct (Z.leb_spec n (Z.of_nat (length a))); [lia|]. cbn [orb]. rewrite Nat2Z.id, E, nth_error_app2, Nat.sub_diag by lia. reflexivity.
Qed.
Print Assumptions C74_entry.
(** Where [i] points in a list of [n] entries. *)
Definition points (n : nat) (i : Z) (p : nat) : Prop :=
  (0 <= i <= Z.of_nat n /\ Z.of_nat p = i) \/ (Z.of_nat n < i /\ p = n) \/ (- Z.of_nat n <= i < 0 /\ Z.of_nat p = Z.of_nat n + i) \/ (i < - Z.of_nat n /\ p = 0%nat).
(** [l[i:j]]. *)
Theorem C74_section : forall A (l : list A) i j p q, points (length l) i p -> points (length l) j q ->
  exists a b, l = a ++ py_slice i j l ++ b /\ length a = p /\ length (py_slice i j l) = (q - p)%nat.
Proof.
  intros A l i j p q P Q. assert (B : forall k r, points (length l) k r -> Z.to_nat (norm_bound (Z.of_nat (length l)) k) = r /\ (r <= length l)%nat).
  { intros k r H. unfold norm_bound. destruct (Z.ltb_spec k 0); destruct H as [[H1 H2]|[[H1 H2]|[[H1 H2]|[H1 H2]]]]; lia. }
  destruct (B i p P) as [Ep Lp]. destruct (B j q Q) as [Eq Lq]. unfold py_slice. rewrite Ep, Eq. unfold slice.
  exists (firstn p l), (skipn (q - p)%nat (skipn p l)). split; [rewrite firstn_skipn; symmetry; apply firstn_skipn|]. split; [rewrite firstn_length; lia|]. rewrite firstn_length, skipn_length. lia.
Qed.
Print Assumptions C74_section.
Lemma points_some : forall n i, exists p, points n i p.
Proof. intros n i. exists (Z.to_nat (norm_bound (Z.of_nat n) i)). unfold points, norm_bound. destruct (Z.ltb_spec i 0); lia. Qed.

(* ------------------------------------------------------------------ *)
(** ** Examples *)

(** -2.75, 2^53 + 1 (a tie), lists of mixed kinds, and sections from the end. *)
Example C74_example :
  int_value (VFloat (S754_finite true 11 (-2))) (-2) /\ ~ int_value (VFloat S754_nan) 0 /\
  real_value (VInt (2 ^ 53 + 1)) (S754_finite false (2 ^ 52) 1) /\ ~ (exists f, real_value (VInt (10 ^ 309)) f) /\
  text_value VNone (lit "None") /\ text_value (VInt (-120)) (lit "-120") /\ ~ text_value (VInt 7) (lit "07") /\
  false_value (VFloat (S754_zero true)) /\ equals (VFloat (S754_finite false (2 ^ 52) (-51))) 2 /\
  (exists a, array_of [VInt 1; VFloat f_one; VBool true] DFloat a) /\ complex_is (VList [VInt 1; VCplx f_zero f_one]) true /\
  points 5 (-2) 3 /\ py_slice (-2) 9 [1; 2; 3; 4; 5] = [4; 5].
Proof.
  split; [apply C74_int; vm_compute; reflexivity|]. split; [intros [[] _]|]. split; [apply C74_real; vm_compute; reflexivity|].
  split; [intros [f H]; apply C74_real in H; vm_compute in H; discriminate|]. split; [reflexivity|]. split; [apply C74_text; vm_compute; reflexivity|].
  split; [intro H; apply C74_text in H; vm_compute in H; discriminate|]. split; [exists true; reflexivity|].
  split; [apply C74_equal; [reflexivity|reflexivity|vm_compute; reflexivity]|]. split; [eexists; apply C74_array; vm_compute; reflexivity|].
  split; [apply C74_complex; vm_compute; reflexivity|]. split; [unfold points; lia|reflexivity].
Qed.
