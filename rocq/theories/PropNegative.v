(** Reals of type 2414 that do not fit their columns: the written set cannot be
    read, or a field is replaced by zero. *)
From Coq Require Import String List NArith ZArith Bool Lia.
Import ListNotations.
From Verif Require Import PyBase PyNum PyVal Utf8 Tools DsNodes DsHeaders DsGroups Ds55 Ds2414 Uff Facts IntFacts FloatFacts DecFacts FloatText FloatExact CplxFacts DictFacts
  Scan Container Append ContainerThms Utf8Facts Lines Stored Cells Rows RtNodes RtCs RtHeads RtElems RtGroups RtNodal RtAnalysis PropNearest PropNumeral PropAnalysis Witness.
From Coq Require Import Lia.
Open Scope string_scope.
Open Scope list_scope.
Open Scope nat_scope.

(* ------------------------------------------------------------------ *)
(** ** Texts that are not reals *)

Definition word_char (c : N) : Prop := (c = 43 \/ c = 45 \/ c = 46 \/ 48 <= c <= 57 \/ 65 <= c <= 90 \/ 97 <= c <= 122)%N.
Lemma digit_word : forall ds, digit_list ds -> Forall word_char ds.
Proof. intros ds H. eapply Forall_impl; [|exact H]. intros c Hc. unfold word_char. cbn beta in Hc. lia. Qed.
Lemma sign_word : forall sg neg, sign_of sg neg -> Forall word_char sg.
Proof. intros sg neg [[-> _]|[[-> _]|[-> _]]]; repeat constructor; unfold word_char; cbn; lia. Qed.
Lemma decimal_word : forall u neg ds k, decimal u neg ds k -> Forall word_char u.
Proof.
  intros u neg ds k (sg & ip & pt & fp & ex & x & -> & Hs & Hi & Hf & Hp & _ & _ & He & _). repeat (apply Forall_app; split); eauto using sign_word, digit_word.
  - destruct Hp as [-> |[-> _]]; repeat constructor; unfold word_char; cbn; lia.
  - destruct He as [[-> _]|(c & s2 & n2 & d2 & -> & Hc & H2 & H3 & _)]; [constructor|]. constructor; [unfold word_char; lia|]. apply Forall_app. eauto using sign_word, digit_word.
Qed.
Lemma spelled_word : forall w u, Forall (fun x => 97 <= x <= 122)%N (lit w) -> spelled w u -> Forall word_char u /\ Forall (fun c => c <> 45%N) u.
Proof.
  intros w u Hw H. apply (spelled_chars _ _ Hw) in H. split; (eapply Forall_impl; [|exact H]); intros c Hc; unfold word_char; cbn beta in Hc; lia.
Qed.
Ltac low := cbn; repeat constructor; discriminate.
Lemma named_word : forall u f, named u f -> exists sg neg w, u = sg ++ w /\ sign_of sg neg /\ Forall word_char w /\ Forall (fun c => c <> 45%N) w.
Proof.
  intros u f (sg & neg & w & -> & Hs & Hw). exists sg, neg, w. split; [reflexivity|]. split; [exact Hs|].
  destruct Hw as [[[Hw|Hw] _]|[Hw _]]; eapply spelled_word; try exact Hw; low.
Qed.
Lemma real_word : forall s f, real_text s f -> exists a t b, s = a ++ t ++ b /\ spacing a /\ spacing b /\ Forall (fun c => c <> 32%N) t.
Proof.
  intros s f (a & t & u & b & E & Ha & Hb & Hu & Hr). exists a, t, b. split; [exact E|]. split; [exact Ha|]. split; [exact Hb|].
  apply (ungrouped_chars _ t u Hu); [discriminate|].
  assert (W : Forall word_char u).
  { destruct Hr as [(neg & ds & k & Hd & _)|Hn]; [eapply decimal_word; exact Hd|]. destruct (named_word _ _ Hn) as (sg & neg & w & -> & Hs & Hw & _). apply Forall_app. eauto using sign_word. }
  eapply Forall_impl; [|exact W]. intros c Hc ->. unfold word_char in Hc. lia.
Qed.
(** A blank between other characters. *)
Lemma real_blank : forall x m m' y r f, ~ In x spaces -> ~ In y spaces -> ~ real_text (x :: m ++ 32%N :: m' ++ y :: r) f.
Proof.
  intros x m m' y r f Hx Hy H. apply real_word in H as (a & t & b & E & Ha & Hb & Ht).
  destruct a as [|c a]; [|cbn [app] in E; injection E as <- _; inversion Ha; subst; contradiction]. cbn [app] in E.
  change (x :: m ++ ?z) with ((x :: m) ++ z) in E. set (p := x :: m) in E.
  assert (I1 : nth_error (t ++ b) (length p) = Some 32%N) by (rewrite <- E, nth_error_app2, Nat.sub_diag by lia; reflexivity).
  assert (I2 : nth_error (t ++ b) (length p + S (length m')) = Some y).
  { rewrite <- E, nth_error_app2 by lia. replace (length p + S (length m') - length p) with (S (length m')) by lia. cbn [nth_error]. rewrite nth_error_app2, Nat.sub_diag by lia. reflexivity. }
  destruct (Nat.lt_ge_cases (length p) (length t)) as [L|L].
  - rewrite nth_error_app1 in I1 by exact L. apply nth_error_In in I1. rewrite Forall_forall in Ht. exact (Ht _ I1 eq_refl).
  - rewrite nth_error_app2 in I2 by lia. apply nth_error_In in I2. unfold spacing in Hb. rewrite Forall_forall in Hb. exact (Hy (Hb _ I2)).
Qed.

Lemma sign_len : forall sg neg, sign_of sg neg -> length sg <= 1.
Proof. intros sg neg [[-> _]|[[-> _]|[-> _]]]; cbn; lia. Qed.
Lemma digit_no45 : forall ds, digit_list ds -> ~ In 45%N ds.
Proof. intros ds H Hi. unfold digit_list in H. rewrite Forall_forall in H. specialize (H _ Hi). cbn beta in H. lia. Qed.
(** A minus sign after anything but the letter of the exponent. *)
Lemma decimal_minus : forall u neg ds k n c, decimal u neg ds k -> nth_error u n = Some c -> nth_error u (S n) = Some 45%N -> (c = 101 \/ c = 69)%N.
Proof.
  intros u neg ds k n c (sg & ip & pt & fp & ex & x & -> & Hs & Hi & Hf & Hp & _ & _ & He & _) E1 E2. assert (Ls := sign_len _ _ Hs).
  assert (Hn : ~ In 45%N (ip ++ pt ++ fp)).
  { intro Q. apply in_app_or in Q as [Q|Q]; [exact (digit_no45 _ Hi Q)|]. apply in_app_or in Q as [Q|Q]; [|exact (digit_no45 _ Hf Q)].
    destruct Hp as [-> |[-> _]]; cbn in Q; [destruct Q as [Q|[]]; discriminate|contradiction]. }
  replace (ip ++ pt ++ fp ++ ex) with ((ip ++ pt ++ fp) ++ ex) in * by (rewrite <- !app_assoc; reflexivity). set (w := ip ++ pt ++ fp) in *. clearbody w.
  rewrite nth_error_app2 in E2 by lia. destruct (Nat.lt_ge_cases (S n - length sg) (length w)) as [L|L].
  { rewrite nth_error_app1 in E2 by exact L. apply nth_error_In in E2. contradiction. }
  rewrite nth_error_app2 in E2 by exact L. destruct He as [[-> _]|(e & s2 & n2 & d2 & -> & Hc & H2 & H3 & _)]; [destruct (S n - length sg - length w); discriminate|].
  destruct (S n - length sg - length w) as [|j] eqn:Ej; [cbn in E2; injection E2 as ->; lia|]. cbn [nth_error] in E2.
  destruct j as [|j].
  - rewrite nth_error_app2 in E1 by lia. rewrite nth_error_app2 in E1 by lia. replace (n - length sg - length w) with 0 in E1 by lia. cbn in E1. injection E1 as <-. exact Hc.
  - apply sign_len in H2. rewrite nth_error_app2 in E2 by lia. apply nth_error_In in E2. destruct (digit_no45 _ H3 E2).
Qed.
Lemma real_minus : forall p c q f, ~ In c spaces -> (c <> 101 /\ c <> 69)%N -> ~ real_text (p ++ c :: 45%N :: q) f.
Proof.
  intros p c q f Hc He (a & t & u & b & E & Ha & Hb & Hu & Hr). unfold spacing in *. rewrite Forall_forall in Ha, Hb.
  assert (I1 : nth_error (a ++ t ++ b) (length p) = Some c) by (rewrite <- E, nth_error_app2, Nat.sub_diag by lia; reflexivity).
  assert (I2 : nth_error (a ++ t ++ b) (S (length p)) = Some 45%N) by (rewrite <- E, nth_error_app2 by lia; replace (S (length p) - length p) with 1 by lia; reflexivity).
  destruct (Nat.lt_ge_cases (length p) (length a)) as [L|L]; [rewrite nth_error_app1 in I1 by exact L; apply nth_error_In in I1; exact (Hc (Ha _ I1))|].
  rewrite nth_error_app2 in I1, I2 by lia. replace (S (length p) - length a) with (S (length p - length a)) in I2 by lia. set (n := length p - length a) in *.
  destruct (Nat.lt_ge_cases (S n) (length t)) as [L2|L2].
  2:{ rewrite nth_error_app2 in I2 by lia. apply nth_error_In in I2. specialize (Hb _ I2). cbn in Hb. repeat (destruct Hb as [Hb|Hb]; [discriminate Hb|]). contradiction. }
  rewrite nth_error_app1 in I1, I2 by lia. clearbody n. clear E Ha Hb.
  apply nth_error_split in I1 as (t1 & t2 & -> & Et). subst n. rewrite nth_error_app2 in I2 by lia. replace (S (length t1) - length t1) with 1 in I2 by lia. cbn [nth_error] in I2.
  destruct t2 as [|c2 t2]; [discriminate|]. injection I2 as ->. destruct Hu as [-> Hg].
  assert (H95 : c <> 95%N).
  { intros ->. destruct (Hg _ _ eq_refl) as (? & ? & y & ? & _ & Q & _ & Hy). injection Q as <- _. unfold a_digit in Hy. lia. }
  rewrite filter_app in Hr. cbn [filter] in Hr. rewrite (proj2 (N.eqb_neq c 95) H95) in Hr. cbn [negb N.eqb Pos.eqb] in Hr.
  set (u1 := filter _ t1) in Hr. set (u2 := filter _ t2) in Hr.
  assert (J1 : nth_error (u1 ++ c :: 45%N :: u2) (length u1) = Some c) by (rewrite nth_error_app2, Nat.sub_diag by lia; reflexivity).
  assert (J2 : nth_error (u1 ++ c :: 45%N :: u2) (S (length u1)) = Some 45%N) by (rewrite nth_error_app2 by lia; replace (S (length u1) - length u1) with 1 by lia; reflexivity).
  destruct Hr as [(neg & ds & k & Hd & _)|Hn].
  - destruct (decimal_minus _ _ _ _ _ _ Hd J1 J2); lia.
  - destruct (named_word _ _ Hn) as (sg & neg & w & Ew & Hs & _ & Hw). rewrite Ew in J2. apply sign_len in Hs. rewrite nth_error_app2 in J2 by lia. apply nth_error_In in J2.
    rewrite Forall_forall in Hw. exact (Hw _ J2 eq_refl).
Qed.

Lemma not_space : forall c, is_ws c = false -> ~ In c spaces.
Proof.
  intros c H Hi. cbn in Hi. repeat (destruct Hi as [<-|Hi]; [vm_compute in H; discriminate H|]). contradiction.
Qed.
Lemma py_float_blank : forall x m y r, is_ws x = false -> is_ws y = false -> py_float (strip (x :: m ++ blank :: y :: r)) = Err ValueError.
Proof.
  intros x m y r Hx Hy. apply C71_real_error. intros f. unfold strip.
  destruct (strip_by_decomp is_ws (x :: m ++ blank :: y :: r)) as (a & b & E & Ha & Hb).
  destruct a as [|c a]; [|cbn [app] in E; injection E as <- _; cbn [forallb] in Ha; rewrite Hx in Ha; discriminate]. cbn [app] in E.
  set (s := strip_by is_ws _) in *. clearbody s. intro H. 
  assert (I : nth_error (s ++ b) (S (length m + 1)) = Some y).
  { rewrite <- E. cbn [nth_error]. rewrite nth_error_app2 by lia. replace (length m + 1 - length m) with 1 by lia. reflexivity. }
  destruct (Nat.lt_ge_cases (S (length m + 1)) (length s)) as [L|L].
  - assert (Es : s = x :: m ++ 32%N :: [] ++ y :: skipn (S (S (length m + 1))) s).
    { rewrite <- (firstn_skipn (S (S (length m + 1))) s) at 1. 
      assert (F : firstn (S (S (length m + 1))) s = x :: m ++ [32%N; y]).
      { transitivity (firstn (S (S (length m + 1))) (s ++ b)); [rewrite firstn_app; replace (S (S (length m + 1)) - length s) with 0 by lia; rewrite firstn_O, app_nil_r; reflexivity|].
        rewrite <- E. rewrite firstn_cons. f_equal. rewrite firstn_app. rewrite firstn_all2 by lia. replace (S (length m + 1) - length m) with 2 by lia. reflexivity. }
      rewrite F. cbn [app]. rewrite <- app_assoc. reflexivity. }
    rewrite Es in H. exact (real_blank _ _ _ _ _ _ (not_space _ Hx) (not_space _ Hy) H).
  - rewrite nth_error_app2 in I by exact L. apply nth_error_In in I. rewrite forallb_forall in Hb. rewrite (Hb _ I) in Hy. discriminate.
Qed.
Lemma py_float_minus : forall p c q, is_ws c = false -> (c <> 101 /\ c <> 69)%N -> py_float (p ++ c :: 45%N :: q) = Err ValueError.
Proof. intros p c q Hc He. apply C71_real_error. intros f H. exact (real_minus _ _ _ _ (not_space _ Hc) He H). Qed.

(* ------------------------------------------------------------------ *)
(** ** What [%.5e] prints *)

Lemma digits_list : forall ds, forallb is_digit ds = true -> digit_list ds.
Proof.
  intros ds H. unfold digit_list. rewrite Forall_forall. rewrite forallb_forall in H. intros c Hc. specialize (H c Hc). unfold is_digit in H.
  apply andb_true_iff in H as [H1 H2]. apply N.leb_le in H1, H2. lia.
Qed.
Lemma fmt5_shape : forall f, f_valid f = true -> f_finite f = true -> exists c ds sg es,
  fmt_e false 5 f = sign_text (fsign f) ++ c :: 46%N :: ds ++ 101%N :: sg :: es /\ digit_list (c :: ds) /\ length ds = 5 /\
  (sg = 43 \/ sg = 45)%N /\ digit_list es /\ 2 <= length es <= 3.
Proof.
  intros f Hv Hf.
  assert (Hm : forall s q k, mant_ok 5 (pad0 6 (dec_nat q)) -> (Z.abs k < 1000)%Z -> exists c ds sg es,
    sign_text s ++ mant_text 5 q ++ exp_text false k = sign_text s ++ c :: 46%N :: ds ++ 101%N :: sg :: es /\ digit_list (c :: ds) /\ length ds = 5 /\
    (sg = 43 \/ sg = 45)%N /\ digit_list es /\ 2 <= length es <= 3).
  { intros s q k [Hd Hl] Hk. unfold mant_text. destruct (pad0 6 (dec_nat q)) as [|c ds]; [discriminate|]. destruct (exp_digits false k) as (es & -> & He & _ & H2 & H3).
    exists c, ds, (if (k <? 0)%Z then 45 else 43)%N, es. split; [reflexivity|]. split; [apply digits_list; exact Hd|]. split; [cbn in Hl; lia|].
    split; [destruct (k <? 0)%Z; auto|]. split; [apply digits_list; exact He|]. specialize (H3 Hk). lia. }
  destruct f as [s|s| |s m e]; try discriminate Hf; cbn [fmt_e fsign].
  - apply Hm; [apply (mant_zero 5)|lia].
  - apply valid_canon in Hv. destruct (dec_round (Z.of_nat 5) m e) as [q k] eqn:Ed.
    destruct (dec_round_spec _ _ _ _ _ (Nat2Z.is_nonneg 5) Ed) as (Hq & _). destruct (mant_digits 5 q Hq) as [Hmo _].
    apply Hm; [exact Hmo|]. assert (H := dec_round_exp _ _ _ _ _ Hv Ed). lia.
Qed.
Definition printed (f : float) : str := fmt_e false 5 f.
Lemma printed_len : forall f, f_valid f = true -> f_finite f = true -> 11 <= length (printed f) <= 13 /\
  (fsign f = true -> 12 <= length (printed f)) /\ (length (printed f) = 13 -> fsign f = true).
Proof.
  intros f Hv Hf. destruct (fmt5_shape f Hv Hf) as (c & ds & sg & es & E & _ & Hl & _ & _ & He). unfold printed. rewrite E, app_length. cbn [length]. rewrite app_length. cbn [length].
  destruct (fsign f); cbn [sign_text length]; repeat split; intros; try lia; try reflexivity.
Qed.
(** The first eleven characters are a number. *)
Lemma printed_prefix : forall f, f_valid f = true -> f_finite f = true -> exists g, py_float (firstn 11 (printed f)) = Ok g.
Proof.
  intros f Hv Hf. destruct (fmt5_shape f Hv Hf) as (c & ds & sg & es & E & Hd & Hl & Hs & Hes & He).
  assert (X : exists n, 1 <= n /\ firstn 11 (printed f) = sign_text (fsign f) ++ [c] ++ lit "." ++ ds ++ 101%N :: [sg] ++ firstn n es /\ firstn n es <> []).
  { unfold printed. rewrite E. do 6 (destruct ds as [|? ds]; try discriminate Hl). destruct es as [|e0 [|e1 es]]; cbn in He; try lia.
    destruct (fsign f); [exists 1|exists 2]; (split; [lia|]); cbn [sign_text app firstn]; (split; [reflexivity|discriminate]). }
  destruct X as (n & Hn & -> & Hne). inversion Hd as [|? ? Hc Hds]; subst.
  assert (D : exists neg ds' k, decimal (sign_text (fsign f) ++ [c] ++ lit "." ++ ds ++ 101%N :: [sg] ++ firstn n es) neg ds' k).
  { exists (fsign f), ([c] ++ ds), (signed (sg =? 45)%N (digits_number (firstn n es)) - Z.of_nat (length ds))%Z.
    exists (sign_text (fsign f)), [c], (lit "."), ds, (101%N :: [sg] ++ firstn n es), (signed (sg =? 45)%N (digits_number (firstn n es))).
    split; [reflexivity|]. split; [unfold sign_of; destruct (fsign f); auto|]. split; [constructor; [exact Hc|constructor]|]. split; [exact Hds|]. split; [left; reflexivity|].
    split; [reflexivity|]. split; [discriminate|]. split; [|reflexivity]. right. exists 101%N, [sg], (sg =? 45)%N, (firstn n es). split; [reflexivity|]. split; [left; reflexivity|].
    split; [unfold sign_of; destruct Hs as [-> | ->]; auto|]. split; [|split; [exact Hne|reflexivity]]. unfold digit_list in *. rewrite Forall_forall in *. intros x Hx. apply Hes. rewrite <- (firstn_skipn n es); apply in_or_app; left; exact Hx. }
  destruct D as (neg & ds' & k & D). clear E. set (s := sign_text _ ++ _) in *. clearbody s.
  destruct (dec_value_nearest s neg ds' k D) as [G1 G2]. set (g := float_of_dec _ _ _) in *. clearbody g.
  destruct (C71_real_read s g) as (g' & R & _); [|exists g'; exact R].
  exists [], s, s, []. split; [rewrite app_nil_r; reflexivity|]. split; [constructor|]. split; [constructor|]. split; [|left; exists neg, ds', k; auto].
  assert (W := decimal_word _ _ _ _ D). rewrite Forall_forall in W.
  assert (W' : forall x, In x s -> x <> 95%N) by (intros x Hx ->; specialize (W _ Hx); unfold word_char in W; lia). clear - W'. split.
  - induction s as [|x s IH]; [reflexivity|]. cbn [filter]. rewrite (proj2 (N.eqb_neq x 95) (W' x (or_introl eq_refl))). cbn [negb]. f_equal. apply IH. intros y Hy. apply W'. right. exact Hy.
  - intros a b ->. exfalso. apply (W' 95%N); [apply in_or_app; right; left; reflexivity|reflexivity].
Qed.

(** A real that takes more than its eleven characters. *)
Definition crosses (f : float) : Prop := f_valid f = true /\ f_finite f = true /\ 11 < length (printed f).
Lemma negative_crosses : forall f, f_valid f = true -> f_finite f = true -> fsign f = true -> crosses f.
Proof. intros f Hv Hf Hs. destruct (printed_len f Hv Hf) as (_ & L & _). specialize (L Hs). repeat split; try assumption; lia. Qed.

(* ------------------------------------------------------------------ *)
(** ** Columns of records 12 and 13 *)

Notation w13 := (repeat 13 6).
Notation t13 := (repeat 3%Z 6).
Lemma sum13 : forall i n, i <= n -> sum (firstn i (repeat 13 n)) = 13 * i.
Proof. induction i as [|i IH]; intros [|n] H; try lia; cbn [repeat firstn sum]; [reflexivity|reflexivity|]. rewrite IH by lia. lia. Qed.
Lemma column13 : forall line i, i < 6 -> column line w13 i = strip (firstn 13 (skipn (13 * i) line)).
Proof. intros line i Hi. unfold column, slice. rewrite !sum13 by lia. f_equal. f_equal. lia. Qed.
Lemma glen : forall l, Forall w11 l -> length (gline l) = 13 * length l.
Proof.
  intros l H. rewrite gline_segs. induction H as [|f l [_ Hf] _ IH]; [reflexivity|]. cbn [map concat]. rewrite app_length, IH. cbn [gtext length]. rewrite Hf. lia.
Qed.
Lemma gline_app : forall a b, gline (a ++ b) = gline a ++ gline b.
Proof. intros a b. rewrite !gline_segs, map_app, concat_app. reflexivity. Qed.
Lemma gline_cons : forall f l, gline (f :: l) = gtext f ++ gline l.
Proof. intros f l. rewrite !gline_segs. reflexivity. Qed.
Lemma nonws_head : forall s, nonws s -> exists y r, s = y :: r /\ is_ws y = false.
Proof.
  intros [|y r] [H1 H2]; [congruence|]. exists y, r. split; [reflexivity|]. cbn [forallb] in H2. apply andb_true_iff in H2 as [H2 _]. apply negb_true_iff. exact H2.
Qed.
(** The column after the real that is too long holds its end, blanks and the
    start of the next real. *)
Lemma column_crossed : forall l1 f g l2 z, Forall w11 l1 -> crosses f -> length l1 < 5 ->
  py_float (column (gline (l1 ++ f :: g :: l2) ++ z) w13 (S (length l1))) = Err ValueError.
Proof.
  intros l1 f g l2 z H1 (Hv & Hf & Hc) Hl. rewrite column13 by lia. destruct (printed_len f Hv Hf) as (L & _).
  rewrite gline_app, !gline_cons, <- !app_assoc. replace (13 * S (length l1)) with (length (gline l1) + 13) by (rewrite glen by exact H1; lia).
  rewrite <- skipn_skipn_add. rewrite skipn_app_exact by reflexivity.
  unfold gtext. fold (printed f). fold (printed g).
  change ((blank :: blank :: printed f) ++ ?x) with ([blank; blank] ++ printed f ++ x). 
  change (skipn 13 ([blank; blank] ++ ?x)) with (skipn 11 x). rewrite skipn_app. replace (11 - length (printed f)) with 0 by lia. rewrite skipn_O.
  assert (Lt : length (skipn 11 (printed f)) = length (printed f) - 11) by apply skipn_length.
  assert (Wt : forallb (fun c => negb (is_ws c)) (skipn 11 (printed f)) = true).
  { assert (W := proj2 (fmt_e_nonws false 5 f)). fold (printed f) in W. rewrite <- (firstn_skipn 11 (printed f)), forallb_app in W. apply andb_true_iff in W. apply W. }
  destruct (skipn 11 (printed f)) as [|x t]; [cbn in Lt; lia|]. cbn [forallb] in Wt. apply andb_true_iff in Wt as [Wx _]. apply negb_true_iff in Wx.
  destruct (nonws_head _ (fmt_e_nonws false 5 g)) as (y & r & Ey & Wy). fold (printed g) in Ey. rewrite Ey. cbn [length] in Lt.
  assert (E : exists q, firstn 13 ((x :: t) ++ (blank :: blank :: y :: r) ++ gline l2 ++ z) = x :: (t ++ [blank]) ++ blank :: y :: q).
  { destruct t as [|x2 [|? ?]]; [| |cbn [length] in Lt; lia]; cbn [app firstn]; eexists; reflexivity. }
  destruct E as [q E]. match goal with |- py_float (strip ?X) = _ => change X with (firstn 13 ((x :: t) ++ (blank :: blank :: y :: r) ++ gline l2 ++ z)) end. rewrite E. apply py_float_blank; assumption.
Qed.
Lemma column_first : forall f l z, f_valid f = true -> f_finite f = true -> exists g, py_float (column (gline (f :: l) ++ z) w13 0) = Ok g.
Proof.
  intros f l z Hv Hf. rewrite column13 by lia. destruct (printed_len f Hv Hf) as (L & _). rewrite gline_cons, <- app_assoc. change (13 * 0) with 0. rewrite skipn_O. unfold gtext. fold (printed f).
  change (firstn 13 ((blank :: blank :: printed f) ++ ?x)) with ([blank; blank] ++ firstn 11 (printed f ++ x)). rewrite firstn_app. replace (11 - length (printed f)) with 0 by lia.
  rewrite firstn_O, app_nil_r. unfold strip. rewrite strip_by_pre by reflexivity. rewrite strip_by_nonws; [apply printed_prefix; assumption|].
  assert (W := proj2 (fmt_e_nonws false 5 f)). fold (printed f) in W. rewrite <- (firstn_skipn 11 (printed f)), forallb_app in W. apply andb_true_iff in W. apply W.
Qed.

(** Reading records 12 and 13. *)
Definition wide_at (i : nat) (l : list float) : Prop :=
  exists l1 f g l2, l = l1 ++ f :: g :: l2 /\ length l1 = i /\ Forall w11 l1 /\ crosses f.
Lemma parse_crossed : forall i l names, wide_at i l -> i < 5 -> length names = 6 ->
  parse_header_line (gline l ++ [LF]) 6 w13 t13 names = Err ValueError.
Proof.
  intros i l names (l1 & f & g & l2 & -> & <- & H1 & Hc) Hi Hn.
  apply (header_err _ 6 w13 t13 names) with (i := S (length l1)) (t := 3%Z) (e := ValueError); try (cbn [repeat length]; lia).
  - do 5 (destruct l1 as [|? l1]; [reflexivity|]). cbn [length] in Hi. lia.
  - unfold field_val. cbn [Z.eqb Pos.eqb]. rewrite column_crossed by (assumption || lia). reflexivity.
Qed.
Lemma mandatory_cases : forall l d, (exists e, mandatory d l = Ok e) \/ mandatory d l = Err ValueError.
Proof.
  induction l as [|[k [t s]] l IH]; intro d; [left; exists d; reflexivity|]. cbn [mandatory]. destruct (field_val t s) as [v|e] eqn:E; cbn [rbind]; [apply IH|].
  right. apply field_val_err in E. subst e. reflexivity.
Qed.
Lemma parse_cases : forall line mn ws ts names, length ws <= length names -> length ws <= length ts -> mn <= length ws ->
  (exists e, parse_header_line line mn ws ts names = Ok e) \/ parse_header_line line mn ws ts names = Err ValueError.
Proof.
  intros line mn ws ts names H1 H2 H3. rewrite parse_header_unfold by assumption. set (l := combine _ _). clearbody l.
  destruct (mandatory_cases (firstn mn l) []) as [[e ->]| ->]; cbn [rbind]; [left; rewrite optional_ok; eexists; reflexivity|right; reflexivity].
Qed.
(** Keys of what a header line gives. *)
Lemma put_keys : forall l d, NoDup (map fst d) -> NoDup (map fst (fold_left put_field l d)) /\
  forall k, In k (map fst (fold_left put_field l d)) -> In k (map fst d) \/ In k (map (fun kv => KS (fst kv)) l).
Proof.
  induction l as [|[k v] l IH]; intros d Hd; [split; [exact Hd|auto]|]. cbn [fold_left].
  assert (P : NoDup (map fst (put_field d (k, v))) /\ forall k', In k' (map fst (put_field d (k, v))) -> In k' (map fst d) \/ k' = KS k).
  { unfold put_field. cbn [fst snd]. destruct v as [v|]; cbn [put_opt]; [|auto]. clear IH. induction d as [|[k0 v0] d IH]; cbn [dput map fst].
    - split; [constructor; [intros []|constructor]|]. cbn [map fst In]. intros k' [<-|[]]. right. reflexivity.
    - cbn [map fst] in Hd. inversion Hd as [|? ? N1 N2]; subst. destruct (key_eqb_spec (KS k) k0) as [<-|Hk]; cbn [map fst].
      + split; [exact Hd|]. auto.
      + destruct (IH N2) as [I1 I2]. split; [constructor; [|exact I1]; intro Q; destruct (I2 _ Q) as [Q1|Q1]; congruence|].
        cbn [In]. intros k' [<-|Q]; [auto|]. destruct (I2 _ Q); auto. }
  destruct P as [P1 P2]. destruct (IH _ P1) as [I1 I2]. split; [exact I1|]. intros k' Hk. destruct (I2 _ Hk) as [Q|Q]; [destruct (P2 _ Q) as [R| ->]|]; cbn [map In fst]; auto.
Qed.
Lemma mandatory_fold : forall l d e, mandatory d l = Ok e -> exists l', map fst l' = map fst l /\ e = fold_left put_field l' d.
Proof.
  induction l as [|[k [t s]] l IH]; intros d e H; cbn [mandatory] in H; [injection H as <-; exists []; split; reflexivity|].
  destruct (field_val t s) as [v|]; [|discriminate]. cbn [rbind] in H. destruct (IH _ _ H) as (l' & E1 & E2). exists ((k, v) :: l'). cbn [map fst fold_left]. rewrite E1. auto.
Qed.
Lemma parse_keys : forall line mn ws ts names e, length ws <= length names -> length ws <= length ts -> mn <= length ws ->
  parse_header_line line mn ws ts names = Ok e -> NoDup (map fst e) /\ forall k, In k (map fst e) -> In k (map KS names).
Proof.
  intros line mn ws ts names e H1 H2 H3 H. rewrite parse_header_unfold in H by assumption. set (l := combine _ _) in *.
  destruct (mandatory [] (firstn mn l)) as [d|] eqn:E; [|discriminate]. cbn [rbind] in H. apply mandatory_fold in E as (l' & E & ->). rewrite optional_ok in H. injection H as <-.
  rewrite <- fold_left_app. destruct (put_keys (l' ++ map (fun f : DictFacts.field => (fst f, opt_val (fst (snd f)) (snd (snd f)))) (skipn mn l)) [] (NoDup_nil _)) as [K1 K2].
  split; [exact K1|]. intros k Hk. destruct (K2 k Hk) as [[]|Q]. apply in_map_iff in Q as (kv & <- & Q). apply in_map.
  assert (In (fst kv) (map fst l)).
  { rewrite <- (firstn_skipn mn l), map_app. apply in_or_app. apply in_app_or in Q as [Q|Q]; [left; rewrite <- E; apply in_map; exact Q|right].
    apply in_map_iff in Q as (f & <- & Q). cbn [fst]. apply in_map. exact Q. }
  apply in_map_iff in H as ([k0 v0] & <- & Q0). apply in_combine_l in Q0. exact Q0.
Qed.
Lemma dget_dupdate : forall e d k, NoDup (map fst e) -> dget (dupdate d e) k = match dget e k with Some v => Some v | None => dget d k end.
Proof.
  induction e as [|[k0 v0] e IH]; intros d k Hn; [reflexivity|]. cbn [map fst] in Hn. inversion Hn as [|? ? N1 N2]; subst.
  change (dupdate d ((k0, v0) :: e)) with (dupdate (dput d k0 v0) e). rewrite IH by exact N2. cbn [dget]. rewrite dget_dput.
  destruct (key_eqb_spec k k0) as [->|]; [|reflexivity]. rewrite (proj2 (dget_None e k0) N1). reflexivity.
Qed.

Definition rec_ok (r : hrec) : Prop := length (h_widths r) <= length (h_names r) /\ length (h_widths r) <= length (h_types r) /\ h_min r <= length (h_widths r).
Lemma recs_cases : forall lines recs d, Forall (fun r => rec_ok r /\ h_line r < length lines) recs ->
  (exists d', header_recs lines d recs = Ok d') \/ header_recs lines d recs = Err ValueError.
Proof.
  intros lines recs d H. revert d. induction H as [|r recs [(H1 & H2 & H3) Hl] _ IH]; intro d; [left; exists d; reflexivity|]. cbn [header_recs]. unfold ln.
  destruct (nth_error lines (h_line r)) as [line|] eqn:E; [|apply nth_error_None in E; lia]. cbn [of_option rbind].
  destruct (parse_cases line _ _ _ _ H1 H2 H3) as [[e ->]| ->]; cbn [rbind]; [apply IH|right; reflexivity].
Qed.
Lemma recs_keep : forall lines recs d d', Forall rec_ok recs -> header_recs lines d recs = Ok d' ->
  forall k, ~ In k (flat_map h_names recs) -> dget d' (KS k) = dget d (KS k).
Proof.
  intros lines recs d d' H. revert d. induction H as [|r recs (H1 & H2 & H3) _ IH]; intros d Hd k Hk; cbn [header_recs] in Hd; [injection Hd as <-; reflexivity|].
  destruct (ln lines (h_line r)) as [line|]; [|discriminate]. cbn [rbind] in Hd.
  destruct (parse_header_line line (h_min r) (h_widths r) (h_types r) (h_names r)) as [e|] eqn:E; [|discriminate]. cbn [rbind] in Hd.
  cbn [flat_map] in Hk. rewrite (IH _ Hd) by (intro Q; apply Hk, in_or_app; right; exact Q).
  destruct (parse_keys _ _ _ _ _ _ H1 H2 H3 E) as [K1 K2]. rewrite dget_dupdate by exact K1.
  rewrite (proj2 (dget_None e (KS k))); [reflexivity|]. intro Q. apply K2 in Q. apply in_map_iff in Q as (k' & Ek & Q). injection Ek as ->. apply Hk, in_or_app. left. exact Q.
Qed.

(* ------------------------------------------------------------------ *)
(** ** Reading what was written *)

Definition HL (a : ana) : list str := firstn 15 (map (fun l : str => l ++ [LF]) (TAG :: hdr2414 :: headw_lines a ++ body_lines (n_body a))).
Definition steps (a : ana) : nat := 2 * length (map (fun l : str => l ++ [LF]) (TAG :: hdr2414 :: headw_lines a ++ body_lines (n_body a))) + 2.
Definition after_head (a : ana) : result dict :=
  if (n_an a =? 5)%Z then do d <- header_recs (HL a) (pre2414 a) recs2414_5 ;; freq_data d (split (unlines (body_lines (n_body a))))
  else do d <- header_recs (HL a) (pre2414 a) recs2414_n ;; loc_data (steps a) d (body_lines (n_body a)).
Lemma linesw_ok : forall d a, repr2414 d a -> wfw2414 a -> Forall okline (hdr2414 :: linesw2414 a).
Proof.
  intros d a R W. constructor; [apply hdr6_ok; [reflexivity|apply plain_ascii; reflexivity|discriminate]|]. apply Forall_app. split; [exact (proj2 (headw_ok d a R W))|].
  eapply body_lines_ok. apply W.
Qed.
Lemma read_w : forall d a, repr2414 d a -> wfw2414 a ->
  extract2414 (unlines (TAG :: hdr2414 :: linesw2414 a)) = try_any (after_head a) (read_error "2414").
Proof.
  intros d a R W. assert (Hok := linesw_ok d a R W). unfold extract2414, extract2414_fuel. rewrite split_text by assumption. cbv beta iota zeta. unfold linesw2414.
  assert (Hr := headw_read d a (gline (n_r12 a)) (gline (n_r13 a)) (body_lines (n_body a)) R W). fold (headw_lines a) in Hr.
  assert (R4 : Forall2 (fun k s => has as_txt d k s) id_keys (n_ids a)) by apply R. apply forall2_5 in R4 as (i1 & i2 & i3 & i4 & i5 & Ei & _).
  match goal with |- context [header_recs ?y _ recs2414_head] => change y with (HL a) end. change (header_recs (HL a) [(KS "type", VInt 2414)] recs2414_head = Ok (pre2414 a)) in Hr.
  rewrite Hr. cbn [rbind].
  assert (X1 : ix (pre2414 a) "analysis_type" = Ok (VInt (n_an a))) by (unfold pre2414; rewrite Ei; reflexivity).
  rewrite X1. cbn [rbind py_eqZ].
  match goal with |- context [join ?x] => assert (Ej : join x = unlines (body_lines (n_body a))) end.
  { unfold headw_lines, head_with. rewrite Ei. cbn [map app skipn]. unfold unlines, join. reflexivity. }
  rewrite Ej.
  assert (Es : splitlines_str false (unlines (body_lines (n_body a))) = body_lines (n_body a)).
  { unfold splitlines_str. rewrite splitlines_unlines; [reflexivity|reflexivity|]. rewrite forallb_forall. intros q Hq.
    assert (Hb := body_lines_ok _ _ (proj2 (proj2 (proj2 (proj2 (proj2 (proj2 (proj2 (proj2 (proj2 (proj2 (proj2 W)))))))))))). rewrite Forall_forall in Hb. apply Hb. assumption. }
  rewrite Es. reflexivity.
Qed.

(** The call writes the set, the file has one set more, and that set cannot be
    read. *)
Definition unreadable (c : clock) (m : wmode) (fd ho : bool) (d : dict) : Prop :=
  forall file u, appendable (kept m file) ->
  exists new u0 u', uff_new (Some (kept m file)) = Ok u0 /\
    write_sets c file u [d] (mode_name m) fd = (Some (kept m file ++ new), u', None) /\
    get_n_sets (Some (kept m file ++ new)) u' = Ok (u', S (n_sets u0)) /\
    read_sets (Some (kept m file ++ new)) u' (SelOne (Z.of_nat (n_sets u0))) ho = Err (PyException "Error when reading data-set(s).").
Definition ordinary (e : exc) : Prop := e <> Unmodelled /\ e <> OutOfFuel.
Lemma try_err : forall A (r : result A) e x, r = Err x -> ordinary x -> try_any r e = Err e.
Proof. intros A r e x -> [H1 H2]. destruct x; try reflexivity; congruence. Qed.
Lemma stored_unreadable : forall c m fd ho d b x, stored c m fd d b -> extract_set (type_in (b_body b)) (b_open b ++ b_body b) ho = Err x -> ordinary x ->
  unreadable c m fd ho d.
Proof.
  intros c m fd ho d b x Hs Hr Hx file u Ha. destruct (stored_write c m fd d b file u Hs Ha) as [d' Hw].
  exists (block_bytes b), (view (kept m file)), (view (kept m file ++ block_bytes b)).
  split; [apply uff_new_view|]. destruct Hs as [Hf _].
  split. { unfold write_sets. rewrite parse_mode_name. cbn [write_list]. rewrite Hw. reflexivity. }
  split. { unfold get_n_sets. rewrite sync_view. cbn [rbind]. unfold view. cbn [n_sets].
           rewrite extents_block by assumption. rewrite app_length. cbn [length]. rewrite Nat.add_1_r. reflexivity. }
  rewrite c06. unfold rmap, wanted. cbn [map rseq]. change (n_sets (view (kept m file))) with (length (extents (kept m file))).
  rewrite set_at_new by assumption. rewrite Hr. cbn [rbind]. rewrite (try_err _ _ _ x eq_refl Hx). reflexivity.
Qed.
Lemma stored_w : forall c m fd d a, repr2414 d a -> wfw2414 a -> exists b, stored c m fd d b /\
  forall ho, extract_set (type_in (b_body b)) (b_open b ++ b_body b) ho = try_any (after_head a) (read_error "2414").
Proof.
  intros c m fd d a R W. destruct (stored_text c m fd d 2414 hdr2414 (linesw2414 a) (writes2414 c m fd d a R W) (linesw_ok d a R W) eq_refl) as (b & Hs & Ht & _ & _ & Hd).
  exists b. split; [exact Hs|]. intro ho. rewrite Ht. unfold extract_set. rewrite Hd. cbn [Z.eqb Pos.eqb]. eapply read_w; eassumption.
Qed.
Lemma unread_w : forall c m fd ho d a x, repr2414 d a -> wfw2414 a -> after_head a = Err x -> ordinary x -> unreadable c m fd ho d.
Proof.
  intros c m fd ho d a x R W Ha Hx. destruct (stored_w c m fd d a R W) as (b & Hs & Hr). eapply stored_unreadable; [exact Hs|rewrite Hr; eapply try_err; eassumption|].
  split; discriminate.
Qed.

(* ------------------------------------------------------------------ *)
(** ** C46: reals of records 12 and 13 *)

Lemma HL_lines : forall a, length (n_ids a) = 5 -> length (HL a) = 15 /\ nth_error (HL a) 11 = Some (zline (n_r10 a) ++ [LF]) /\
  nth_error (HL a) 12 = Some (zline (n_r11 a) ++ [LF]) /\ nth_error (HL a) 13 = Some (gline (n_r12 a) ++ [LF]) /\ nth_error (HL a) 14 = Some (gline (n_r13 a) ++ [LF]).
Proof.
  intros a H. unfold HL, headw_lines, head_with. destruct (n_ids a) as [|i1 [|i2 [|i3 [|i4 [|i5 [|? ?]]]]]]; try discriminate H. repeat split; reflexivity.
Qed.
Lemma recs5_ok : Forall rec_ok recs2414_5.
Proof. repeat (constructor; [repeat split; cbn; lia|]). constructor. Qed.
Lemma recsn_ok : Forall rec_ok recs2414_n.
Proof. repeat (constructor; [repeat split; cbn; lia|]). constructor. Qed.
Lemma recs5_crossed : forall a d i, length (n_ids a) = 5 -> i < 5 -> wide_at i (n_r12 a) \/ wide_at i (n_r13 a) ->
  header_recs (HL a) d recs2414_5 = Err ValueError.
Proof.
  intros a d i Hl Hi Hw. destruct (HL_lines a Hl) as (L & L1 & L2 & L3 & L4). unfold recs2414_5, H. cbn [header_recs h_line h_min h_widths h_types h_names].
  unfold ln. rewrite L1, L2, L3, L4. cbn [of_option rbind].
  destruct (parse_cases (zline (n_r10 a) ++ [LF]) 8 (w10 8) (repeat 2%Z 8) names10) as [[e1 ->]| ->]; try (cbn; lia); cbn [rbind]; [|reflexivity].
  destruct (parse_cases (zline (n_r11 a) ++ [LF]) 2 (w10 2) [2; 2]%Z names11) as [[e2 ->]| ->]; try (cbn; lia); cbn [rbind]; [|reflexivity].
  destruct Hw as [Hw|Hw].
  - rewrite (parse_crossed i _ names12 Hw Hi eq_refl). reflexivity.
  - destruct (parse_cases (gline (n_r12 a) ++ [LF]) 6 w13 t13 names12) as [[e3 ->]| ->]; try (cbn; lia); cbn [rbind]; [|reflexivity].
    rewrite (parse_crossed i _ names13 Hw Hi eq_refl). reflexivity.
Qed.
Lemma ordinary_value : ordinary ValueError.
Proof. split; discriminate. Qed.
(** The first real that is too long. *)
Lemma first_wide : forall l j f, Forall okfin l -> nth_error l j = Some f -> crosses f -> S j < length l -> exists i, i <= j /\ wide_at i l.
Proof.
  induction l as [|x l IH]; intros j f Hl Hj Hc Hn; [destruct j; discriminate|]. inversion Hl as [|? ? [Hv Hf] Hl']; subst. cbn [length] in Hn.
  destruct (printed_len x Hv Hf) as ((L1 & _) & _). destruct (Nat.eq_dec (length (printed x)) 11) as [E|E].
  - destruct j as [|j]; [cbn in Hj; injection Hj as ->; destruct Hc as (_ & _ & Hc); lia|]. destruct (IH j f Hl' Hj Hc ltac:(lia)) as (i & Hi & l1 & f' & g & l2 & -> & <- & H1 & H2).
    exists (S (length l1)). split; [lia|]. exists (x :: l1), f', g, l2. repeat split; try reflexivity; try assumption; try apply H2. constructor; [split; assumption|exact H1].
  - exists 0. split; [lia|]. destruct l as [|g l]; [cbn in Hn; lia|]. exists [], x, g, l. repeat split; try reflexivity; try assumption; [constructor|lia].
Qed.

(** A frequency response with finite reals: one of the first five reals of record
    12 or of record 13 that is negative, or has an exponent of three digits,
    makes the written set unreadable. *)
Theorem C46_unreadable_refuted : forall c m fd ho d a rows j f, repr2414 d a -> wfw2414 a -> n_body a = AFreq rows ->
  (Forall okfin (n_r12 a) /\ nth_error (n_r12 a) j = Some f \/ Forall okfin (n_r13 a) /\ nth_error (n_r13 a) j = Some f) ->
  j < 5 -> fsign f = true \/ length (printed f) <> 11 -> unreadable c m fd ho d.
Proof.
  intros c m fd ho d a rows j f R W Hb Hr Hj Hs. destruct (lens d a R) as (_ & _ & L3 & L4 & L5).
  assert (X : exists i, i <= j /\ (wide_at i (n_r12 a) \/ wide_at i (n_r13 a))).
  { destruct Hr as [[Hr Hn]|[Hr Hn]].
    all: assert (Hf : okfin f) by (rewrite Forall_forall in Hr; apply Hr; eapply nth_error_In; exact Hn).
    all: assert (Hc : crosses f) by (destruct Hf as [F1 F2]; destruct Hs as [Hs|Hs]; [apply negative_crosses; assumption|]; destruct (printed_len f F1 F2) as (L & _); repeat split; try assumption; lia).
    all: destruct (first_wide _ j f Hr Hn Hc) as (i & Hi & Hw); [lia|]; exists i; auto. }
  destruct X as (i & Hi & Hw). eapply (unread_w c m fd ho d a ValueError); [assumption|assumption| |exact ordinary_value].
  assert (K : kind_ok a) by apply W. unfold kind_ok in K. rewrite Hb in K. unfold after_head. rewrite K. cbn [Z.eqb Pos.eqb].
  rewrite (recs5_crossed a _ i L5) by (assumption || lia). reflexivity.
Qed.
Print Assumptions C46_unreadable_refuted.

Lemma parse_other : forall f l names, okfin f -> length names = 6 -> NoDup names -> exists e,
  parse_header_line (gline (f :: l) ++ [LF]) 1 w13 t13 names = Ok e /\ NoDup (map fst e) /\ (forall k, In k (map fst e) -> In k (map KS names)) /\
  forall i k, i < 6 -> nth_error names i = Some k -> dget e (KS k) = opt_val 3 (column (gline (f :: l) ++ [LF]) w13 i).
Proof.
  intros f l names [Hv Hf] Hn Hd. destruct (column_first f l [LF] Hv Hf) as (g & Hg).
  destruct (header_ok (gline (f :: l) ++ [LF]) 1 w13 t13 names) as (e & E & H1 & _); try (cbn [repeat length]; lia); try assumption.
  - intros i t Hi Ht. assert (i = 0) as -> by lia. cbn in Ht. injection Ht as <-. exists (Some (VFloat g)). unfold field_val. cbn [Z.eqb Pos.eqb]. rewrite Hg. reflexivity.
  - exists e. assert (K : NoDup (map fst e) /\ forall k, In k (map fst e) -> In k (map KS names)) by (eapply parse_keys; [| | |exact E]; cbn [repeat length]; lia). destruct K as [K1 K2].
    split; [exact E|]. split; [exact K1|]. split; [exact K2|]. intros i k Hi Hk. apply H1; [cbn; lia|exact Hk|]. do 6 (destruct i as [|i]; [reflexivity|]). lia.
Qed.
Ltac nodup := repeat (apply NoDup_cons; [cbn [In]; intuition discriminate|]); apply NoDup_nil.
(** What is read of the records of the other kinds of data. *)
Lemma recsn_read : forall d a, repr2414 d a -> wfw2414 a -> is_freq (n_body a) = false -> Forall okfin (n_r12 a) -> Forall okfin (n_r13 a) ->
  exists d', header_recs (HL a) (pre2414 a) recs2414_n = Ok d' /\ ix d' "dataset_location" = Ok (VInt (n_loc a)) /\
    (forall i k, i < 6 -> nth_error other12 i = Some k -> dget d' (KS k) = opt_val 3 (column (gline (n_r12 a) ++ [LF]) w13 i)) /\
    (forall i k, i < 6 -> nth_error other13 i = Some k -> dget d' (KS k) = opt_val 3 (column (gline (n_r13 a) ++ [LF]) w13 i)).
Proof.
  intros d a R W Hf F12 F13. destruct (lens d a R) as (L1 & L2 & L3 & L4 & L5). destruct (headw_ok d a R W) as [(_ & _ & _ & V1 & V2) _].
  destruct (HL_lines a L5) as (_ & E1 & E2 & E3 & E4).
  assert (X2 : ix (pre2414 a) "dataset_location" = Ok (VInt (n_loc a))).
  { unfold pre2414. destruct (n_ids a) as [|i1 [|i2 [|i3 [|i4 [|i5 [|? ?]]]]]]; try discriminate L5. reflexivity. }
  assert (G : exists e1 e2 e3 e4, parse_header_line (zline (n_r10 a) ++ [LF]) 1 (w10 8) (repeat 2%Z 8) other10 = Ok e1 /\
    parse_header_line (zline (n_r11 a) ++ [LF]) 1 (w10 8) (repeat 2%Z 8) other11 = Ok e2 /\
    (parse_header_line (gline (n_r12 a) ++ [LF]) 1 w13 t13 other12 = Ok e3 /\ NoDup (map fst e3) /\ (forall k, In k (map fst e3) -> In k (map KS other12)) /\
      forall i k, i < 6 -> nth_error other12 i = Some k -> dget e3 (KS k) = opt_val 3 (column (gline (n_r12 a) ++ [LF]) w13 i)) /\
    (parse_header_line (gline (n_r13 a) ++ [LF]) 1 w13 t13 other13 = Ok e4 /\ NoDup (map fst e4) /\ (forall k, In k (map fst e4) -> In k (map KS other13)) /\
      forall i k, i < 6 -> nth_error other13 i = Some k -> dget e4 (KS k) = opt_val 3 (column (gline (n_r13 a) ++ [LF]) w13 i))).
  { destruct (n_r12 a) as [|f12 r12]; [discriminate L3|]. destruct (n_r13 a) as [|f13 r13]; [discriminate L4|]. inversion F12; inversion F13; subst.
    destruct (parse_other f12 r12 other12) as (e3 & P3); [assumption|reflexivity|nodup|]. destruct (parse_other f13 r13 other13) as (e4 & P4); [assumption|reflexivity|nodup|].
    rewrite Hf in L2.
    destruct (n_r10 a) as [|a1 [|a2 [|a3 [|a4 [|a5 [|a6 [|a7 [|a8 [|? ?]]]]]]]]]; try discriminate L1.
    destruct (n_r11 a) as [|b1 [|b2 [|b3 [|b4 [|b5 [|b6 [|b7 [|b8 [|? ?]]]]]]]]]; try discriminate L2.
    eexists _, _, e3, e4. split; [|split; [|split; [exact P3|exact P4]]]; unfold zline.
    - rewrite (header_cells (map (CI 10) [a1; a2; a3; a4; a5; a6; a7; a8]) (@nil nat)) with (vals := map (fun z => Some (VInt z)) [a1; a2; a3; a4; a5; a6; a7; a8]);
        [reflexivity|exact V1|reflexivity|reflexivity|reflexivity|reflexivity|cbn; lia|hdr_vals].
    - rewrite (header_cells (map (CI 10) [b1; b2; b3; b4; b5; b6; b7; b8]) (@nil nat)) with (vals := map (fun z => Some (VInt z)) [b1; b2; b3; b4; b5; b6; b7; b8]);
        [reflexivity|exact V2|reflexivity|reflexivity|reflexivity|reflexivity|cbn; lia|hdr_vals]. }
  destruct G as (e1 & e2 & e3 & e4 & P1 & P2 & (P3 & N3 & K3 & G3) & (P4 & N4 & K4 & G4)).
  set (d2 := dupdate (dupdate (pre2414 a) e1) e2).
  assert (Hh : header_recs (HL a) (pre2414 a) recs2414_n = Ok (dupdate (dupdate d2 e3) e4)).
  { unfold recs2414_n, H. cbn [header_recs h_line h_min h_widths h_types h_names]. unfold ln. rewrite E1, E2, E3, E4. cbn [of_option rbind].
    change (rec_names "10" 8) with other10. change (rec_names "11" 8) with other11. change (rec_names "12" 6) with other12. change (rec_names "13" 6) with other13.
    rewrite P1. cbn [rbind]. rewrite P2. cbn [rbind]. rewrite P3. cbn [rbind]. rewrite P4. reflexivity. }
  exists (dupdate (dupdate d2 e3) e4). split; [exact Hh|]. split.
  { unfold ix in *. rewrite (recs_keep _ _ _ _ recsn_ok Hh); [exact X2|]. cbn. intro Q. repeat (destruct Q as [Q|Q]; [discriminate Q|]). contradiction. }
  split; intros i k Hi Hk; rewrite dget_dupdate by exact N4.
  - assert (O : dget e4 (KS k) = None).
    { apply dget_None. intro Q. apply K4 in Q. apply in_map_iff in Q as (k' & Ek & Q). injection Ek as ->. apply nth_error_In in Hk. cbn in Q, Hk.
      repeat (destruct Hk as [<-|Hk]; [repeat (destruct Q as [Q|Q]; [discriminate Q|]); contradiction|]). contradiction. }
    rewrite O. rewrite dget_dupdate by exact N3. rewrite (G3 i k Hi Hk). unfold opt_val, field_val. cbn [Z.eqb Pos.eqb]. destruct (py_float _); reflexivity.
  - rewrite (G4 i k Hi Hk). unfold opt_val, field_val. cbn [Z.eqb Pos.eqb]. destruct (py_float _); reflexivity.
Qed.

(** Other kinds of data with finite reals: the set is read back without a report,
    and the field after the first real that is too long is zero. *)
Theorem C46_lost_refuted : forall c m fd ho d a i k, repr2414 d a -> wfw2414 a -> wf_body (n_nv a) (n_body a) -> is_freq (n_body a) = false ->
  Forall okfin (n_r12 a) -> Forall okfin (n_r13 a) -> i < 5 ->
  (wide_at i (n_r12 a) /\ nth_error other12 (S i) = Some k \/ wide_at i (n_r13 a) /\ nth_error other13 (S i) = Some k) ->
  exists out, round_trips c m fd ho d out /\ dget out (KS k) = Some (VFloat f_zero).
Proof.
  intros c m fd ho d a i k R W Wb Hf F12 F13 Hi Hw. destruct (recsn_read d a R W Hf F12 F13) as (d' & Hd & Hl & G12 & G13).
  assert (K : kind_ok a) by apply W. exists (dupdate d' (out_body (n_nv a) (n_dt a) (n_body a))). split.
  - destruct (stored_w c m fd d a R W) as (b & Hs & Hr). eapply stored_round_trips; [exact Hs|]. unfold reads. rewrite Hr. unfold after_head.
    assert (Hn : (n_an a =? 5)%Z = false) by (apply Z.eqb_neq; unfold kind_ok in K; destruct (n_body a); try discriminate Hf; apply K).
    rewrite Hn, Hd. cbn [rbind]. rewrite (loc_read d' a (n_nv a) (n_dt a)); [reflexivity|assumption|assumption|assumption|assumption|].
    unfold steps. rewrite map_length. cbn [length]. rewrite app_length. lia.
  - assert (E : dget d' (KS k) = Some (VFloat f_zero)).
    { destruct Hw as [[Hw Hk]|[Hw Hk]]; [rewrite (G12 (S i) k) by (assumption || lia)|rewrite (G13 (S i) k) by (assumption || lia)];
        destruct Hw as (l1 & f & g & l2 & -> & <- & H1 & Hc); unfold opt_val, field_val; cbn [Z.eqb Pos.eqb]; rewrite column_crossed by (assumption || lia); reflexivity. }
    assert (Hk : In k (other12 ++ other13)) by (apply in_or_app; destruct Hw as [[_ Hk]|[_ Hk]]; apply nth_error_In in Hk; auto).
    assert (N : NoDup (map fst (out_body (n_nv a) (n_dt a) (n_body a))) /\ dget (out_body (n_nv a) (n_dt a) (n_body a)) (KS k) = None).
    { destruct (n_body a); try discriminate Hf; cbn [out_body map fst]; (split; [nodup|]);
        (cbn in Hk; repeat (destruct Hk as [<-|Hk]; [reflexivity|]); contradiction). }
    destruct N as [N1 N2]. rewrite dget_dupdate by exact N1. rewrite N2. exact E.
Qed.
Print Assumptions C46_lost_refuted.
(** Examples: a negative eigenvalue of a frequency response; a negative real of
    record 12 of a static set. *)
Definition a2414_neg : ana := Eval vm_compute in
  a2414 1 5 5 2 [1; 2; 3; 4; 5; 6; 7; 8]%Z [0; 1]%Z (map fl ["0"; "100.5"; "-1.5"; "0"; "2.5"; "0"]) (map fl ["0"; "0"; "1e-20"; "0"; "0"; "0"])
   (AFreq [(29, [fl "1.23456789"; fl "-0.1"; fl "-1"; fl "0"]); (1234567890, [fl "0"; fl "-0"; fl "3"; fl "0"])]%Z).
Definition d2414_less : dict := Eval vm_compute in put d2414_nodes "record12_field1" (fv "-0.25").
Definition a2414_less : ana := Eval vm_compute in
  a2414 1 1 2 3 [0; 7; 0; 0; 0; 0; 0; 0]%Z [0; 0; 0; 0; 0; 0; 0; 0]%Z (fl "-0.25" :: skipn 1 zeros6) zeros6
   (ANodes [(1, [fl "-1.5"; fl "2"; fl "3"]); (22, [])]%Z).
Ltac wfw2414_tac a :=
  unfold wfw2414, wfw_body, okf, a; cbn [n_label n_name n_loc n_ids n_model n_an n_dc n_rt n_dt n_nv n_r10 n_r11 n_r12 n_r13 n_body wfw_body kind_ok last];
  split; [wit1|]; split; [wit|]; split; [wit|];
  split; [let Q := fresh in intro Q; cbn [In] in Q; repeat (destruct Q as [Q|Q]; [discriminate Q|]); contradiction|];
  split; [wit|]; split; [wit|]; split; [wit|]; split; [wit|]; split; [wit|]; split; [wit|].
Example C46_unreadable_example : repr2414 d2414_neg a2414_neg /\ wfw2414 a2414_neg /\ Forall okfin (n_r12 a2414_neg) /\
  exists f, nth_error (n_r12 a2414_neg) 2 = Some f /\ fsign f = true /\ length (printed f) = 12.
Proof.
  split; [|split; [|split]].
  - repr2414_tac d2414_neg a2414_neg. split; [wit_arr|].
    split; [eexists; split; [vm_compute; reflexivity|]; wit_seq; split; vm_compute; reflexivity|].
    split; [intros _; eexists; split; [vm_compute; reflexivity|]; wit_seq; split; vm_compute; reflexivity|]. intro Q. lia.
  - wfw2414_tac a2414_neg. split; [reflexivity|]. split; [lia|]. wit.
  - repeat constructor.
  - eexists. split; [reflexivity|]. split; vm_compute; reflexivity.
Qed.
Example C46_lost_example : repr2414 d2414_less a2414_less /\ wfw2414 a2414_less /\ wf_body (n_nv a2414_less) (n_body a2414_less) /\
  is_freq (n_body a2414_less) = false /\ Forall okfin (n_r12 a2414_less) /\ Forall okfin (n_r13 a2414_less) /\ wide_at 0 (n_r12 a2414_less).
Proof.
  split; [|split; [|split; [|split; [|split; [|split]]]]].
  - repr2414_tac d2414_less a2414_less. split; [wit_arr|]. eexists; split; [vm_compute; reflexivity|]; wit_deep.
  - wfw2414_tac a2414_less. split; [split; [discriminate|reflexivity]|]. wit.
  - cbn [a2414_less n_body n_nv wf_body]. split; [discriminate|]. unfold w12; wit; vm_compute; lia.
  - reflexivity.
  - repeat constructor.
  - repeat constructor.
  - eexists [], _, _, _. split; [reflexivity|]. split; [reflexivity|]. split; [constructor|]. vm_compute. lia.
Qed.
