(** Property C71: which texts are numbers.  [int(text)] and [float(text)] take
    exactly the numerals described here and reject every other text. *)
From Coq Require Import String List NArith ZArith Bool QArith Lia.
Import ListNotations.
From Verif Require Import PyBase PyNum PyVal Tools Facts IntFacts FloatFacts FloatText DictFacts PropNearest.
From Coq Require Import Lia.
Open Scope string_scope.
Open Scope list_scope.
Open Scope nat_scope.

(* ------------------------------------------------------------------ *)
(** ** What is claimed *)

(** Unicode white space without the four separators U+001C to U+001F. *)
Definition spaces : list N :=
  [9; 10; 11; 12; 13; 32; 133; 160; 5760; 8192; 8193; 8194; 8195; 8196; 8197; 8198; 8199; 8200; 8201; 8202; 8232; 8233; 8239; 8287; 12288]%N.
Definition separators : list N := [28; 29; 30; 31]%N.
Definition spacing (s : str) : Prop := Forall (fun c => In c spaces) s.
Definition a_digit (c : N) : Prop := (48 <= c <= 57)%N.
(** [u] is [t] without underscores; each underscore of [t] stands between two digits. *)
Definition ungrouped (t u : str) : Prop :=
  u = filter (fun c => negb (c =? 95)%N) t /\
  forall a b, t = a ++ 95%N :: b -> exists a' x y b', a = a' ++ [x] /\ b = y :: b' /\ a_digit x /\ a_digit y.
(** An integer: sign and digits. *)
Definition integer (u : str) (z : Z) : Prop :=
  exists sg neg ds, u = sg ++ ds /\ sign_of sg neg /\ digit_list ds /\ ds <> [] /\ z = signed neg (digits_number ds).
(** [w] in small or capital letters. *)
Definition spelled (w : string) (u : str) : Prop := Forall2 (fun c x => c = x \/ (c + 32)%N = x) u (lit w).
Definition named (u : str) (f : float) : Prop :=
  exists sg neg w, u = sg ++ w /\ sign_of sg neg /\
    ((spelled "inf" w \/ spelled "infinity" w) /\ f = S754_infinity neg \/ spelled "nan" w /\ f = S754_nan).
Definition int_text (s : str) (z : Z) : Prop :=
  exists a t u b, s = a ++ t ++ b /\ spacing a /\ spacing b /\ ungrouped t u /\ integer u z.
Definition real_text (s : str) (f : float) : Prop :=
  exists a t u b, s = a ++ t ++ b /\ spacing a /\ spacing b /\ ungrouped t u /\
    ((exists neg ds k, decimal u neg ds k /\ nearest (decimal_value ds k) f /\ fsign f = neg) \/ named u f).

(* ------------------------------------------------------------------ *)
(** ** White space *)

Lemma existsb_In : forall l c, existsb (N.eqb c) l = true <-> In c l.
Proof.
  intros l c. rewrite existsb_exists. split; [intros (x & H & E); apply N.eqb_eq in E; congruence|intro H; exists c; split; [exact H|apply N.eqb_refl]].
Qed.
Ltac ndec := repeat match goal with
  | |- context [N.leb ?a ?b] => destruct (N.leb_spec a b)
  | |- context [N.eqb ?a ?b] => destruct (N.eqb_spec a b)
  end.
Definition range (lo : N) (n : nat) : list N := map (fun i => lo + N.of_nat i)%N (seq 0 n).
Lemma range_In : forall lo n c, In c (range lo n) <-> (lo <= c < lo + N.of_nat n)%N.
Proof.
  intros lo n c. unfold range. rewrite in_map_iff. split.
  - intros (i & <- & H). apply in_seq in H. lia.
  - intro H. exists (N.to_nat (c - lo)). split; [lia|]. apply in_seq. lia.
Qed.
Lemma last_cons : forall A (a : list A) x p q, last (x :: a) p = last (x :: a) q.
Proof. induction a as [|y a IH]; intros x p q; [reflexivity|]. exact (IH y p q). Qed.
Lemma ws_num_In : forall c, is_ws_num c = true <-> In c spaces.
Proof.
  intro c. unfold is_ws_num, is_ws.
  assert (E : spaces = range 9 5 ++ [32; 133; 160; 5760]%N ++ range 8192 11 ++ [8232; 8233; 8239; 8287; 12288]%N) by (vm_compute; reflexivity).
  rewrite E, !in_app_iff, !range_In. clear E. cbn [In].
  rewrite andb_true_iff, negb_true_iff, !orb_true_iff, !andb_true_iff, andb_false_iff, !N.leb_le, !N.eqb_eq, !N.leb_gt. lia.
Qed.
Lemma ws_In : forall c, is_ws c = true <-> In c (spaces ++ separators).
Proof.
  intro c. rewrite in_app_iff, <- ws_num_In. unfold is_ws_num, separators. cbn [In]. rewrite andb_true_iff, negb_true_iff, andb_false_iff, !N.leb_gt.
  assert (S : (28 <= c <= 31)%N -> is_ws c = true).
  { intro H. assert (C : c = 28%N \/ c = 29%N \/ c = 30%N \/ c = 31%N) by lia. destruct C as [->|[->|[->| ->]]]; reflexivity. }
  split.
  - intro H. destruct (N.le_gt_cases 28 c), (N.le_gt_cases c 31); [right|left; split; [exact H|]..]; lia.
  - intros [[H _]|H]; [exact H|]. apply S. lia.
Qed.
Lemma spacing_b : forall s, spacing s <-> forallb is_ws_num s = true.
Proof.
  intro s. unfold spacing. rewrite forallb_forall, Forall_forall. split; intros H c Hc; apply ws_num_In; apply H; exact Hc.
Qed.

(* ------------------------------------------------------------------ *)
(** ** Underscores *)

Lemma a_digit_b : forall c, a_digit c <-> is_digit c = true.
Proof. intro c. unfold a_digit, is_digit. rewrite andb_true_iff, !N.leb_le. reflexivity. Qed.
Lemma rm_sound : forall t p u, rm_underscore p t = Some u ->
  u = filter (fun c => negb (c =? 95)%N) t /\
  forall a b, t = a ++ 95%N :: b -> is_digit (last a p) = true /\ exists y b', b = y :: b' /\ is_digit y = true.
Proof.
  induction t as [|c r IH]; intros p u H.
  - cbn in H. injection H as <-. split; [reflexivity|]. intros [|? ?] b E; discriminate.
  - cbn [rm_underscore] in H. cbn [filter]. destruct (N.eqb_spec c 95) as [->|Hc]; cbn [negb].
    + destruct (is_digit p) eqn:Ep; [|discriminate]. destruct r as [|c' r']; [discriminate|]. destruct (is_digit c') eqn:Ec; [|discriminate].
      destruct (IH _ _ H) as [E1 E2]. split; [exact E1|]. intros [|x a] b E.
      * injection E as <-. split; [exact Ep|eauto].
      * cbn [app] in E. injection E as <- E. destruct a as [|x2 a]; [cbn [app] in E; injection E as -> _; discriminate Ec|].
        destruct (E2 (x2 :: a) b E) as [F1 F2]. split; [|exact F2]. change (is_digit (last (x2 :: a) p) = true). rewrite (last_cons _ a x2 p 95%N). exact F1.
    + destruct (rm_underscore c r) as [w|] eqn:E; [|discriminate]. cbn [option_map] in H. injection H as <-. destruct (IH _ _ E) as [E1 E2].
      split; [congruence|]. intros [|x a] b Ea; [cbn [app] in Ea; congruence|]. cbn [app] in Ea. injection Ea as <- Ea. destruct (E2 a b Ea) as [F1 F2].
      split; [|exact F2]. destruct a as [|y a]; [exact F1|]. change (is_digit (last (y :: a) p) = true). rewrite (last_cons _ a y p c). exact F1.
Qed.
Lemma rm_complete : forall t p, (forall a b, t = a ++ 95%N :: b -> is_digit (last a p) = true /\ exists y b', b = y :: b' /\ is_digit y = true) ->
  rm_underscore p t = Some (filter (fun c => negb (c =? 95)%N) t).
Proof.
  induction t as [|c r IH]; intros p H; [reflexivity|]. cbn [rm_underscore filter].
  assert (Hr : rm_underscore c r = Some (filter (fun c => negb (c =? 95)%N) r)).
  { apply IH. intros a b E. destruct (H (c :: a) b) as [F1 F2]; [rewrite E; reflexivity|]. split; [|exact F2].
    destruct a as [|x a]; [exact F1|]. rewrite (last_cons _ a x c p). exact F1. }
  destruct (N.eqb_spec c 95) as [->|Hc]; cbn [negb].
  - destruct (H [] r eq_refl) as [F1 (y & b' & -> & Fy)]. cbn [last] in F1. rewrite F1, Fy. exact Hr.
  - rewrite Hr. reflexivity.
Qed.
Lemma rm_iff : forall t u, rm_underscore 0 t = Some u <-> ungrouped t u.
Proof.
  intros t u. unfold ungrouped. split.
  - intro H. destruct (rm_sound _ _ _ H) as [E1 E2]. split; [exact E1|]. intros a b E. destruct (E2 a b E) as [F1 (y & b' & -> & Fy)].
    destruct (list_eq_dec N.eq_dec a []) as [->|Hn]; [discriminate F1|]. rewrite (app_removelast_last 0%N Hn). exists (removelast a), (last a 0%N), y, b'.
    split; [rewrite <- (app_removelast_last 0%N Hn); reflexivity|]. split; [reflexivity|]. split; apply a_digit_b; assumption.
  - intros [-> H]. apply rm_complete. intros a b E. destruct (H a b E) as (a' & x & y & b' & -> & -> & Hx & Hy). rewrite last_last.
    split; [apply a_digit_b; exact Hx|]. exists y, b'. split; [reflexivity|apply a_digit_b; exact Hy].
Qed.

(* ------------------------------------------------------------------ *)
(** ** Integers *)

Lemma read_sign_spec : forall t neg u, read_sign t = (neg, u) -> exists sg, t = sg ++ u /\ sign_of sg neg.
Proof.
  intros [|c r] neg u H; cbn [read_sign] in H; [injection H as <- <-; exists []; split; [reflexivity|left; split; reflexivity]|].
  destruct (N.eqb_spec c 45) as [->|]; [injection H as <- <-; exists (lit "-"); split; [reflexivity|right; right; split; reflexivity]|].
  destruct (N.eqb_spec c 43) as [->|]; [injection H as <- <-; exists (lit "+"); split; [reflexivity|right; left; split; reflexivity]|].
  injection H as <- <-. exists []. split; [reflexivity|left; split; reflexivity].
Qed.
Lemma read_sign_of : forall sg neg u, sign_of sg neg -> (forall c r, u = c :: r -> c <> 45%N /\ c <> 43%N) -> read_sign (sg ++ u) = (neg, u).
Proof.
  intros sg neg u [[-> ->]|[[-> ->]|[-> ->]]] H; [|reflexivity|reflexivity]. destruct u as [|c r]; [reflexivity|]. destruct (H c r eq_refl) as [H1 H2]. cbn [app read_sign].
  destruct (N.eqb_spec c 45); [contradiction|]. destruct (N.eqb_spec c 43); [contradiction|]. reflexivity.
Qed.
Lemma span_spec : forall f s a b, span f s = (a, b) -> s = a ++ b /\ forallb f a = true /\ match b with c :: _ => f c = false | [] => True end.
Proof.
  induction s as [|c s IH]; intros a b H; cbn [span] in H; [injection H as <- <-; repeat split|].
  destruct (f c) eqn:E.
  - destruct (span f s) as [a' b'] eqn:Es. injection H as <- <-. destruct (IH a' b' eq_refl) as (-> & H2 & H3). cbn [app forallb]. rewrite E. repeat split; assumption.
  - injection H as <- <-. repeat split. exact E.
Qed.
Lemma int_core_iff : forall t z, int_core t = Some z <-> exists u, ungrouped t u /\ integer u z.
Proof.
  intros t z. unfold int_core. split.
  - destruct (rm_underscore 0 t) as [u|] eqn:E; [|discriminate]. apply rm_iff in E. destruct (read_sign u) as [neg v] eqn:Es. destruct (read_sign_spec _ _ _ Es) as (sg & -> & Hs).
    destruct (span is_digit v) as [ds rest] eqn:Ep. destruct (span_spec _ _ _ _ Ep) as (-> & Hd & _). destruct ds as [|c ds]; [discriminate|]. destruct rest; [|discriminate].
    intro H. injection H as <-. eexists. split; [exact E|]. exists sg, neg, (c :: ds). rewrite app_nil_r. split; [reflexivity|]. split; [exact Hs|].
    split; [apply b_digit_list; exact Hd|]. split; [discriminate|]. destruct neg; reflexivity.
  - intros (u & Hu & sg & neg & ds & -> & Hs & Hd & Hn & ->). apply rm_iff in Hu. rewrite Hu. apply digit_list_b in Hd.
    rewrite (read_sign_of sg neg ds Hs).
    + rewrite span_all by exact Hd. destruct ds as [|c ds]; [contradiction|]. destruct neg; reflexivity.
    + intros c r ->. cbn [forallb] in Hd. apply andb_true_iff in Hd as [Hc _]. split; intros ->; discriminate Hc.
Qed.
(** A text between white space is what stripping leaves, if it holds no white space. *)
Lemma strip_between : forall a t b, spacing a -> spacing b -> Forall (fun c => is_ws c = false) t -> strip_num (a ++ t ++ b) = t.
Proof.
  intros a t b Ha Hb Ht. apply spacing_b in Ha, Hb. unfold strip_num. rewrite strip_by_pre by assumption. rewrite strip_by_post by assumption. apply strip_by_nonws.
  apply forallb_forall. rewrite Forall_forall in Ht. intros c Hc. unfold is_ws_num. rewrite (Ht c Hc). reflexivity.
Qed.
Lemma ungrouped_chars : forall (P : N -> Prop) t u, ungrouped t u -> P 95%N -> Forall P u -> Forall P t.
Proof.
  intros P t u [-> _] Hp H. rewrite Forall_forall in *. intros c Hc. destruct (N.eqb_spec c 95) as [->|Hn]; [exact Hp|]. apply H. apply filter_In. split; [exact Hc|].
  destruct (N.eqb_spec c 95); [contradiction|reflexivity].
Qed.
Lemma sign_nonws : forall sg neg, sign_of sg neg -> Forall (fun c => is_ws c = false) sg.
Proof. intros sg neg [[-> _]|[[-> _]|[-> _]]]; repeat constructor. Qed.
Lemma digits_nonws : forall ds, digit_list ds -> Forall (fun c => is_ws c = false) ds.
Proof.
  intros ds H. eapply Forall_impl; [|exact H]. intros c Hc. cbn beta in Hc. destruct (number_chars c (or_introl Hc)) as [Hw _]. destruct (is_ws c); [discriminate|reflexivity].
Qed.
Theorem C71_int : forall s z, py_int s = Ok z <-> int_text s z.
Proof.
  intros s z. assert (E : py_int s = Ok z <-> int_core (strip_num s) = Some z).
  { unfold py_int. destruct (int_core (strip_num s)); cbn [of_option]; split; intro H; congruence. }
  rewrite E. clear E. split.
  - intro H. apply int_core_iff in H as (u & Hu & Hi). destruct (strip_by_decomp is_ws_num s) as (a & b & Es & Ha & Hb).
    exists a, (strip_num s), u, b. split; [exact Es|]. split; [apply spacing_b; exact Ha|]. split; [apply spacing_b; exact Hb|]. split; assumption.
  - intros (a & t & u & b & -> & Ha & Hb & Hu & Hi). rewrite strip_between; [|assumption|assumption|].
    + apply int_core_iff. eauto.
    + apply (ungrouped_chars _ t u Hu); [reflexivity|]. destruct Hi as (sg & neg & ds & -> & Hs & Hd & _). apply Forall_app. split; [eapply sign_nonws; exact Hs|apply digits_nonws; exact Hd].
Qed.
Print Assumptions C71_int.
(** Everything else is a ValueError. *)
Theorem C71_int_error : forall s, (forall z, ~ int_text s z) <-> py_int s = Err ValueError.
Proof.
  intro s. destruct (py_int s) as [z|e] eqn:E.
  - split; [|discriminate]. intro H. exfalso. apply (H z). apply C71_int. exact E.
  - split.
    + intros _. unfold py_int in E. destruct (int_core (strip_num s)); cbn [of_option] in E; [discriminate|congruence].
    + intros _ z Hz. apply C71_int in Hz. congruence.
Qed.
Print Assumptions C71_int_error.

(* ------------------------------------------------------------------ *)
(** ** Reals *)

Lemma spelled_lower : forall w u, Forall (fun x => 97 <= x <= 122)%N (lit w) -> (spelled w u <-> lower u = lit w).
Proof.
  intros w u. unfold spelled, lower. generalize (lit w). clear w. induction u as [|c u IH]; intros l Hl; destruct l as [|x l].
  - split; [reflexivity|constructor].
  - split; [intro H; inversion H|discriminate].
  - split; [intro H; inversion H|discriminate].
  - inversion Hl as [|? ? Hx Hr]; subst. cbn [map]. split; intro H.
    + inversion H as [|? ? ? ? Hc Ht]; subst. f_equal; [|apply IH; assumption]. unfold lower_char. destruct (N.leb_spec 65 c), (N.leb_spec c 90); cbn [andb]; destruct Hc; lia.
    + injection H as Hc Ht. constructor; [|apply IH; assumption]. unfold lower_char in Hc. destruct (N.leb_spec 65 c), (N.leb_spec c 90); cbn [andb] in Hc; auto.
Qed.
Ltac letters := apply Forall_forall; intros x Hx; vm_compute in Hx; repeat (destruct Hx as [<-|Hx]; [split; discriminate|]); contradiction.
Lemma inf_lower : forall u, spelled "inf" u <-> lower u = lit "inf". Proof. intro u. apply spelled_lower. letters. Qed.
Lemma infinity_lower : forall u, spelled "infinity" u <-> lower u = lit "infinity". Proof. intro u. apply spelled_lower. letters. Qed.
Lemma nan_lower : forall u, spelled "nan" u <-> lower u = lit "nan". Proof. intro u. apply spelled_lower. letters. Qed.
Lemma spelled_chars : forall w u, Forall (fun x => 97 <= x <= 122)%N (lit w) -> spelled w u -> Forall (fun c => (65 <= c <= 90 \/ 97 <= c <= 122)%N) u.
Proof.
  intros w u. unfold spelled. generalize (lit w). clear w. induction u as [|c u IH]; intros l Hl H; [constructor|]. inversion H as [|? ? ? ? Hc Ht]; subst. inversion Hl; subst.
  constructor; [lia|]. eapply IH; eassumption.
Qed.
Lemma spelled_first : forall w u, Forall (fun x => 97 <= x <= 122)%N (lit w) -> spelled w u -> forall c r, u = c :: r -> c <> 45%N /\ c <> 43%N.
Proof. intros w u Hw H c r ->. assert (Hc := spelled_chars _ _ Hw H). inversion Hc; subst. lia. Qed.
Lemma exponent_parse : forall ex x, parse_exp ex = Some x -> exponent ex x.
Proof.
  intros [|c r] x H; cbn [parse_exp] in H; [injection H as <-; left; split; reflexivity|]. destruct (((c =? 101) || (c =? 69))%N) eqn:Ec; [|discriminate].
  destruct (read_sign r) as [neg u] eqn:Es. destruct (read_sign_spec _ _ _ Es) as (sg & -> & Hs). destruct (span is_digit u) as [ds rest] eqn:Ep.
  destruct (span_spec _ _ _ _ Ep) as (-> & Hd & _). destruct ds as [|a ds]; [discriminate|]. destruct rest; [|discriminate]. injection H as <-. right.
  exists c, sg, neg, (a :: ds). rewrite app_nil_r. split; [reflexivity|]. split.
  { apply orb_true_iff in Ec as [Ec|Ec]; apply N.eqb_eq in Ec; auto. }
  split; [exact Hs|]. split; [apply b_digit_list; exact Hd|]. split; [discriminate|]. destruct neg; reflexivity.
Qed.
Lemma float_unsigned_decimal : forall neg sg u f, sign_of sg neg -> float_unsigned neg u = Some f ->
  exists ds k, decimal (sg ++ u) neg ds k /\ f = float_of_dec neg (digits_number ds) k.
Proof.
  intros neg sg u f Hs H. unfold float_unsigned in H. destruct (span is_digit u) as [ip r1] eqn:E1. destruct (span_spec _ _ _ _ E1) as (-> & Hi & H1).
  assert (G : exists pt fp r2, r1 = pt ++ fp ++ r2 /\ forallb is_digit fp = true /\ (pt = lit "." \/ pt = [] /\ fp = []) /\
    match r1 with c :: r => if (c =? 46)%N then span is_digit r else ([], r1) | [] => ([], []) end = (fp, r2)).
  { destruct r1 as [|c r]; [exists [], [], []; repeat split; right; split; reflexivity|]. destruct (N.eqb_spec c 46) as [->|Hc].
    - destruct (span is_digit r) as [fp r2] eqn:E2. destruct (span_spec _ _ _ _ E2) as (-> & Hf & _). exists (lit "."), fp, r2. repeat split; [exact Hf|left; reflexivity].
    - exists [], [], (c :: r). repeat split. right. split; reflexivity. }
  destruct G as (pt & fp & r2 & -> & Hf & Hp & Er). rewrite Er in H. destruct (ip ++ fp) as [|a ds] eqn:Ed; [discriminate|].
  destruct (parse_exp r2) as [x|] eqn:Ex; [|discriminate]. injection H as <-. exists (a :: ds), (x - Z.of_nat (length fp))%Z. split; [|reflexivity].
  exists sg, ip, pt, fp, r2, x. split; [reflexivity|]. split; [exact Hs|]. split; [apply b_digit_list; exact Hi|]. split; [apply b_digit_list; exact Hf|].
  split; [exact Hp|]. split; [symmetry; exact Ed|]. split; [discriminate|]. split; [apply exponent_parse; exact Ex|reflexivity].
Qed.
Lemma dec_value_nearest : forall u neg ds k, decimal u neg ds k ->
  nearest (decimal_value ds k) (float_of_dec neg (digits_number ds) k) /\ fsign (float_of_dec neg (digits_number ds) k) = neg.
Proof.
  intros u neg ds k (sg & ip & pt & fp & ex & x & _ & _ & Hi & Hf & _ & Ed & _). apply dec_nearest. apply digits_nonneg. subst ds. apply Forall_app. split; assumption.
Qed.
Lemma float_core_ungrouped : forall t u, ungrouped t u -> float_core t = float_core u.
Proof.
  intros t u H. unfold float_core. assert (H' := H). apply rm_iff in H'. rewrite H'. rewrite rm_underscore_id; [reflexivity|].
  destruct H as [-> _]. apply forallb_forall. intros c Hc. apply filter_In in Hc. apply Hc.
Qed.

(** A text that is read is a numeral, and its value is the nearest double. *)
Theorem C71_real : forall s f, py_float s = Ok f -> real_text s f.
Proof.
  intros s f H. unfold py_float in H. destruct (float_core (strip_num s)) as [g|] eqn:E; [|discriminate]. cbn [of_option] in H. injection H as ->.
  destruct (strip_by_decomp is_ws_num s) as (a & b & Es & Ha & Hb).
  unfold float_core in E. destruct (rm_underscore 0 (strip_num s)) as [u|] eqn:Eu; [|discriminate]. apply rm_iff in Eu.
  exists a, (strip_num s), u, b. split; [exact Es|]. split; [apply spacing_b; exact Ha|]. split; [apply spacing_b; exact Hb|]. split; [exact Eu|].
  destruct (read_sign u) as [neg v] eqn:Er. destruct (read_sign_spec _ _ _ Er) as (sg & -> & Hs).
  destruct (leqb (lower v) (lit "inf") || leqb (lower v) (lit "infinity")) eqn:En.
  - injection E as <-. right. exists sg, neg, v. split; [reflexivity|]. split; [exact Hs|]. left. split; [|reflexivity].
    apply orb_true_iff in En as [En|En]; apply leqb_eq in En; [left; apply inf_lower|right; apply infinity_lower]; exact En.
  - destruct (leqb (lower v) (lit "nan")) eqn:En2.
    + injection E as <-. right. exists sg, neg, v. split; [reflexivity|]. split; [exact Hs|]. right. split; [|reflexivity]. apply nan_lower. apply leqb_eq. exact En2.
    + left. destruct (float_unsigned_decimal neg sg v f Hs E) as (ds & k & Hd & ->). exists neg, ds, k. split; [exact Hd|]. eapply dec_value_nearest. exact Hd.
Qed.
Print Assumptions C71_real.
(** Every numeral is read. *)
Theorem C71_real_read : forall s f, real_text s f -> exists g, py_float s = Ok g /\ real_text s g.
Proof.
  intros s f (a & t & u & b & -> & Ha & Hb & Hu & H).
  assert (W : Forall (fun c => is_ws c = false) u).
  { destruct H as [(neg & ds & k & H & _)|(sg & neg & w & -> & Hs & H)].
    - eapply Forall_impl; [|eapply decimal_chars; exact H]. intros c Hc. destruct (number_chars c Hc) as [Hw _]. destruct (is_ws c); [discriminate|reflexivity].
    - apply Forall_app. split; [eapply sign_nonws; exact Hs|]. assert (L : Forall (fun c => (65 <= c <= 90 \/ 97 <= c <= 122)%N) w).
      { destruct H as [[[H|H] _]|[H _]]; (eapply spelled_chars; [|exact H]); letters. }
      eapply Forall_impl; [|exact L]. intros c Hc. cbn beta in Hc. destruct (is_ws c) eqn:Ew; [|reflexivity]. apply ws_In in Ew. vm_compute in Ew. lia. }
  assert (G : exists g, float_core u = Some g).
  { destruct H as [(neg & ds & k & H & _)|(sg & neg & w & -> & Hs & H)]; [eexists; eapply decimal_core; exact H|].
    assert (F : forall c r, w = c :: r -> c <> 45%N /\ c <> 43%N).
    { destruct H as [[[H|H] _]|[H _]]; (eapply spelled_first; [|exact H]); letters. }
    unfold float_core. rewrite rm_underscore_id.
    - rewrite (read_sign_of sg neg w Hs F). destruct H as [[[H|H] _]|[H _]].
      + apply inf_lower in H. rewrite H, leqb_refl. eexists. reflexivity.
      + apply infinity_lower in H. rewrite H, leqb_refl, orb_true_r. eexists. reflexivity.
      + apply nan_lower in H. rewrite H, leqb_refl. destruct (_ || _); eexists; reflexivity.
    - apply forallb_forall. intros c Hc. destruct (N.eqb_spec c 95) as [->|]; [|reflexivity]. exfalso. apply in_app_iff in Hc as [Hc|Hc].
      + destruct Hs as [[-> _]|[[-> _]|[-> _]]]; vm_compute in Hc; intuition discriminate.
      + assert (L : Forall (fun c => (65 <= c <= 90 \/ 97 <= c <= 122)%N) w).
        { destruct H as [[[H|H] _]|[H _]]; (eapply spelled_chars; [|exact H]); letters. }
        rewrite Forall_forall in L. specialize (L _ Hc). lia. }
  destruct G as [g Hg]. exists g. assert (R : py_float (a ++ t ++ b) = Ok g).
  { unfold py_float. rewrite strip_between; [|assumption|assumption|apply (ungrouped_chars _ t u Hu); [reflexivity|exact W]].
    rewrite (float_core_ungrouped t u Hu), Hg. reflexivity. }
  split; [exact R|apply C71_real; exact R].
Qed.
Print Assumptions C71_real_read.
Theorem C71_real_error : forall s, (forall f, ~ real_text s f) <-> py_float s = Err ValueError.
Proof.
  intro s. destruct (py_float s) as [f|e] eqn:E.
  - split; [|discriminate]. intro H. exfalso. apply (H f). apply C71_real. exact E.
  - split.
    + intros _. unfold py_float in E. destruct (float_core (strip_num s)); cbn [of_option] in E; [discriminate|congruence].
    + intros _ f Hf. destruct (C71_real_read s f Hf) as (g & Hg & _). congruence.
Qed.
Print Assumptions C71_real_error.
(** White space that is stripped from texts. *)
Theorem C71_white : forall s, exists a b, s = a ++ strip s ++ b /\ Forall (fun c => In c (spaces ++ separators)) a /\ Forall (fun c => In c (spaces ++ separators)) b /\
  (forall c r, strip s = c :: r -> ~ In c (spaces ++ separators)) /\ (forall c r, strip s = r ++ [c] -> ~ In c (spaces ++ separators)).
Proof.
  intro s. destruct (strip_by_decomp is_ws s) as (a & b & Es & Ha & Hb). exists a, b. split; [exact Es|].
  split; [apply Forall_forall; rewrite forallb_forall in Ha; intros c Hc; apply ws_In; auto|].
  split; [apply Forall_forall; rewrite forallb_forall in Hb; intros c Hc; apply ws_In; auto|].
  assert (D : forall f l c r, dropwhile f l = c :: r -> f c = false).
  { clear. induction l as [|x l IH]; intros c r H; cbn [dropwhile] in H; [discriminate|]. destruct (f x) eqn:E; [eapply IH; exact H|]. injection H as -> _. exact E. }
  assert (L : forall c r, strip s = r ++ [c] -> is_ws c = false).
  { intros c r H. unfold strip, strip_by, rstrip_by in H. apply (f_equal (@rev N)) in H. rewrite rev_involutive, rev_app_distr in H. cbn [rev app] in H. eapply D. exact H. }
  assert (F : forall c r, strip s = c :: r -> is_ws c = false).
  { intros c r H. unfold strip, strip_by, rstrip_by, lstrip_by in H. apply (f_equal (@rev N)) in H. rewrite rev_involutive in H. cbn [rev] in H.
    destruct (dropwhile_suffix is_ws (rev (dropwhile is_ws s))) as (p & Hp & _). rewrite H in Hp. apply (f_equal (@rev N)) in Hp. rewrite rev_involutive in Hp.
    rewrite !rev_app_distr in Hp. cbn [rev app] in Hp. eapply D. exact Hp. }
  split; intros c r H; rewrite <- ws_In; [rewrite (F c r H)|rewrite (L c r H)]; discriminate.
Qed.
Print Assumptions C71_white.
Example C71_example : int_text (lit "  -1_000 ") (-1000) /\ (exists f, real_text (lit " +1_0.5e-3 ") f) /\ real_text (lit "-Infinity") (S754_infinity true) /\
  (forall z, ~ int_text (lit "1__0") z) /\ (forall z, ~ int_text (lit "1.0") z) /\ (forall f, ~ real_text (lit "1_e5") f) /\ (forall f, ~ real_text (lit "1.0D+00") f) /\
  (forall z, ~ int_text [28; 49]%N z) /\ strip [28; 49; 31; 32]%N = [49]%N.
Proof.
  split; [apply C71_int; vm_compute; reflexivity|]. split; [eexists; apply C71_real; vm_compute; reflexivity|]. split; [apply C71_real; vm_compute; reflexivity|].
  split; [apply C71_int_error; vm_compute; reflexivity|]. split; [apply C71_int_error; vm_compute; reflexivity|]. split; [apply C71_real_error; vm_compute; reflexivity|].
  split; [apply C71_real_error; vm_compute; reflexivity|]. split; [apply C71_int_error; vm_compute; reflexivity|vm_compute; reflexivity].
Qed.
