(** Facts about the list and string primitives of [PyBase]. *)
From Verif Require Import PyBase.
From Coq Require Import Lia.
Open Scope nat_scope.

(* ------------------------------------------------------------------ *)
(** ** Equality and prefixes *)

Lemma leqb_eq : forall a b, leqb a b = true <-> a = b.
Proof.
  induction a as [|x a IH]; destruct b as [|y b]; simpl; split; intro H; try congruence; auto.
  - apply andb_true_iff in H as [H1 H2]. apply N.eqb_eq in H1. apply IH in H2. congruence.
  - injection H as -> ->. rewrite N.eqb_refl. apply IH. reflexivity.
Qed.

Lemma leqb_refl : forall a, leqb a a = true.
Proof. intro a. apply leqb_eq. reflexivity. Qed.

Lemma prefixb_iff : forall p s, prefixb p s = true <-> exists r, s = p ++ r.
Proof.
  induction p as [|x p IH]; intros s; simpl.
  - split; eauto.
  - destruct s as [|y s].
    + split; [discriminate | intros [r Hr]; discriminate].
    + split; intro H.
      * apply andb_true_iff in H as [H1 H2]. apply N.eqb_eq in H1. apply IH in H2 as [r ->].
        exists r. simpl. congruence.
      * destruct H as [r Hr]. injection Hr as -> ->. rewrite N.eqb_refl. simpl. apply IH. eauto.
Qed.

Lemma prefixb_app : forall p r, prefixb p (p ++ r) = true.
Proof. intros. apply prefixb_iff. eauto. Qed.

Lemma prefixb_firstn : forall p s, prefixb p s = leqb (firstn (length p) s) p.
Proof.
  induction p as [|x p IH]; intros [|y s]; simpl; auto.
  rewrite IH, (N.eqb_sym x y). reflexivity.
Qed.

Lemma prefixb_cons_app : forall p a b, length p <= length a -> prefixb p (a ++ b) = prefixb p a.
Proof.
  induction p as [|x p IH]; intros [|y a] b H; simpl in *; auto; try lia.
  rewrite IH by lia. reflexivity.
Qed.

Lemma prefixb_length : forall p s, prefixb p s = true -> length p <= length s.
Proof. intros p s H. apply prefixb_iff in H as [r ->]. rewrite app_length. lia. Qed.

Lemma containsb_iff : forall p s, containsb p s = true <-> exists a b, s = a ++ p ++ b.
Proof.
  intros p s. induction s as [|c s IH]; simpl.
  - rewrite orb_false_r. rewrite prefixb_iff. split.
    + intros [r Hr]. exists [], r. exact Hr.
    + intros (a & b & H). destruct a; [|discriminate]. eauto.
  - rewrite orb_true_iff, prefixb_iff, IH. split.
    + intros [[r Hr]|(a & b & ->)].
      * exists [], r. exact Hr.
      * exists (c :: a), b. reflexivity.
    + intros (a & b & H). destruct a as [|c' a].
      * left. eauto.
      * right. injection H as -> ->. eauto.
Qed.

(* ------------------------------------------------------------------ *)
(** ** firstn, skipn, slice *)

Lemma firstn_app_exact : forall A n (a b : list A), length a = n -> firstn n (a ++ b) = a.
Proof. intros A n a b <-. rewrite firstn_app, Nat.sub_diag, firstn_all. simpl. apply app_nil_r. Qed.

Lemma skipn_app_exact : forall A n (a b : list A), length a = n -> skipn n (a ++ b) = b.
Proof. intros A n a b <-. rewrite skipn_app, Nat.sub_diag, skipn_all. reflexivity. Qed.

Lemma firstn_short : forall A n (a : list A), length a <= n -> firstn n a = a.
Proof. intros. apply firstn_all2. assumption. Qed.

Lemma skipn_short : forall A n (a : list A), length a <= n -> skipn n a = [].
Proof. intros. apply skipn_all2. assumption. Qed.

Lemma skipn_skipn_add : forall A a b (l : list A), skipn a (skipn b l) = skipn (b + a) l.
Proof.
  intros A a b. induction b as [|b IH]; intros l; simpl; auto.
  destruct l as [|x l]; [destruct a; reflexivity|]. apply IH.
Qed.

Lemma slice_app_mid : forall A (a b c : list A),
  slice (length a) (length a + length b) (a ++ b ++ c) = b.
Proof.
  intros. unfold slice. rewrite skipn_app_exact by reflexivity.
  apply firstn_app_exact. lia.
Qed.

Lemma nth_error_skipn : forall A i (l : list A), nth_error l i = nth_error (skipn i l) 0.
Proof.
  induction i as [|i IH]; intros [|x l]; try reflexivity. simpl skipn. simpl nth_error at 1. apply IH.
Qed.

Lemma nth_error_length : forall A (l : list A) i x, nth_error l i = Some x -> i < length l.
Proof. intros. apply nth_error_Some. congruence. Qed.

(* ------------------------------------------------------------------ *)
(** ** results *)

Lemma rseq_map_ok : forall A B (f : A -> result B) (g : A -> B) l,
  (forall a, In a l -> f a = Ok (g a)) -> rseq (map f l) = Ok (map g l).
Proof.
  intros A B f g l. induction l as [|a l IH]; intro H; simpl; auto.
  rewrite H by (left; reflexivity). simpl. rewrite IH by (intros; apply H; right; assumption).
  reflexivity.
Qed.

Lemma rmap_ok : forall A B (f : A -> result B) (g : A -> B) l,
  (forall a, In a l -> f a = Ok (g a)) -> rmap f l = Ok (map g l).
Proof. intros. apply rseq_map_ok. assumption. Qed.

Lemma rmap_Forall2 : forall A B (f : A -> result B) l l',
  Forall2 (fun a b => f a = Ok b) l l' -> rmap f l = Ok l'.
Proof.
  intros A B f l l' H. induction H as [|a b l l' Hab _ IH]; [reflexivity|].
  unfold rmap in *. simpl. rewrite Hab. simpl. rewrite IH. reflexivity.
Qed.

Lemma rseq_app : forall A (a b : list (result A)),
  rseq (a ++ b) = do x <- rseq a ;; do y <- rseq b ;; Ok (x ++ y).
Proof.
  intros A a b. induction a as [|r a IH]; simpl.
  - destruct (rseq b); reflexivity.
  - destruct r as [x|e]; simpl; auto. rewrite IH. destruct (rseq a); simpl; auto.
    destruct (rseq b); reflexivity.
Qed.

(* ------------------------------------------------------------------ *)
(** ** py_nth *)

Lemma py_nth_nat : forall A (l : list A) i,
  py_nth l (Z.of_nat i) = of_option IndexError (nth_error l i).
Proof.
  intros A l i. unfold py_nth.
  destruct (Z.of_nat i <? 0)%Z eqn:E; [apply Z.ltb_lt in E; lia|].
  destruct (Z.of_nat (length l) <=? Z.of_nat i)%Z eqn:E2.
  - apply Z.leb_le in E2. rewrite orb_true_r.
    replace (nth_error l i) with (@None A); [reflexivity|].
    symmetry. apply nth_error_None. lia.
  - rewrite E. simpl. rewrite Nat2Z.id. reflexivity.
Qed.

Lemma py_nth_ok : forall A (l : list A) i x,
  nth_error l i = Some x -> py_nth l (Z.of_nat i) = Ok x.
Proof. intros A l i x H. rewrite py_nth_nat, H. reflexivity. Qed.

(* ------------------------------------------------------------------ *)
(** ** every *)

Lemma every_aux_skip : forall A step k (a b : list A),
  length a = k -> every_aux step k (a ++ b) = every_aux step 0 b.
Proof.
  intros A step k a b H. revert k H. induction a as [|x a IH]; intros k H; simpl in *.
  - subst. reflexivity.
  - destruct k as [|k]; [discriminate|]. apply IH. lia.
Qed.

Lemma every_aux_nil : forall A step k (a : list A), length a <= k -> every_aux step k a = [].
Proof.
  intros A step k a. revert k. induction a as [|x a IH]; intros k H; simpl in *; auto.
  destruct k; [lia|]. apply IH. lia.
Qed.

(** Selecting column [k] of rows of equal length [step]. *)
Lemma every_rows : forall A step k (rows : list (list A)) (f : list A -> A),
  k < step ->
  (forall r, In r rows -> length r = step /\ nth_error r k = Some (f r)) ->
  every k step (concat rows) = map f rows.
Proof.
  intros A step k rows f Hk. unfold every. induction rows as [|r rows IH]; intro H; simpl.
  - destruct k; reflexivity.
  - destruct (H r (or_introl eq_refl)) as [Hlen Hnth].
    apply nth_error_split in Hnth as (a & b & Hr & Ha).
    rewrite Hr at 1. rewrite <- app_assoc. rewrite every_aux_skip by assumption. simpl.
    f_equal.
    assert (Hb : length b = pred step - k).
    { rewrite Hr in Hlen. rewrite app_length in Hlen. simpl in Hlen. lia. }
    replace (pred step) with (length b + k) by lia.
    clear Hr Hlen Ha.
    rewrite <- (IH (fun r0 Hr0 => H r0 (or_intror Hr0))).
    clear IH H. revert Hb. generalize (concat rows). intros l Hb.
    clear Hb.
    induction b as [|y b IHb]; simpl; auto.
Qed.

(** Every [step]-th element starting at 0 of a list of pairs laid out flat. *)
Lemma every_cons_skip : forall A step k x (l : list A), every_aux step (S k) (x :: l) = every_aux step k l.
Proof. reflexivity. Qed.

(* ------------------------------------------------------------------ *)
(** ** strip *)

Lemma dropwhile_all : forall f a b, forallb f a = true -> dropwhile f (a ++ b) = dropwhile f b.
Proof.
  intros f a b. induction a as [|x a IH]; simpl; auto.
  intro H. apply andb_true_iff in H as [-> H]. auto.
Qed.

Lemma dropwhile_id : forall f s, match s with c :: _ => f c = false | [] => True end -> dropwhile f s = s.
Proof. intros f [|c s] H; simpl; auto. rewrite H. reflexivity. Qed.

Lemma forallb_rev : forall A (f : A -> bool) l, forallb f (rev l) = forallb f l.
Proof.
  intros A f l. induction l as [|x l IH]; simpl; auto.
  rewrite forallb_app, IH. simpl. rewrite andb_true_r. apply andb_comm.
Qed.

Lemma dropwhile_none : forall f s, forallb f s = true -> dropwhile f s = [].
Proof. intros f s H. rewrite <- (app_nil_r s), dropwhile_all by assumption. reflexivity. Qed.

Lemma rstrip_by_ws : forall f a b, forallb f b = true -> rstrip_by f (a ++ b) = rstrip_by f a.
Proof.
  intros f a b H. unfold rstrip_by. rewrite rev_app_distr, dropwhile_all by (rewrite forallb_rev; assumption).
  reflexivity.
Qed.

Lemma lstrip_by_ws : forall f a b, forallb f a = true -> lstrip_by f (a ++ b) = lstrip_by f b.
Proof. intros. apply dropwhile_all. assumption. Qed.

(** White space around does not matter. *)
Lemma strip_by_pre : forall f a b, forallb f a = true -> strip_by f (a ++ b) = strip_by f b.
Proof. intros. unfold strip_by. rewrite lstrip_by_ws by assumption. reflexivity. Qed.

Lemma dropwhile_app_nonws : forall f a b,
  existsb (fun c => negb (f c)) a = true -> dropwhile f (a ++ b) = dropwhile f a ++ b.
Proof.
  intros f a b. induction a as [|x a IH]; simpl; [discriminate|].
  destruct (f x); simpl; auto.
Qed.

Lemma forallb_existsb_neg : forall A (f : A -> bool) l,
  existsb (fun c => negb (f c)) l = negb (forallb f l).
Proof. intros A f l. induction l as [|x l IH]; simpl; auto. rewrite IH. destruct (f x); reflexivity. Qed.

Lemma strip_by_post : forall f a b, forallb f b = true -> strip_by f (a ++ b) = strip_by f a.
Proof.
  intros f a b H. unfold strip_by, lstrip_by.
  destruct (forallb f a) eqn:E.
  - rewrite dropwhile_all by assumption. rewrite (dropwhile_none f b H), (dropwhile_none f a E). reflexivity.
  - rewrite dropwhile_app_nonws by (rewrite forallb_existsb_neg, E; reflexivity).
    apply rstrip_by_ws. assumption.
Qed.

Lemma rstrip_by_id : forall f s, match rev s with c :: _ => f c = false | [] => True end -> rstrip_by f s = s.
Proof.
  intros f s H. unfold rstrip_by. rewrite dropwhile_id by assumption. apply rev_involutive.
Qed.

Lemma strip_by_nonws : forall f s,
  forallb (fun c => negb (f c)) s = true -> strip_by f s = s.
Proof.
  intros f s H. unfold strip_by, lstrip_by. rewrite dropwhile_id.
  - apply rstrip_by_id. rewrite <- forallb_rev in H. destruct (rev s) as [|c r]; auto.
    simpl in H. apply andb_true_iff in H as [H _]. destruct (f c); auto; discriminate.
  - destruct s as [|c r]; auto. simpl in H. apply andb_true_iff in H as [H _]. destruct (f c); auto; discriminate.
Qed.

Lemma dropwhile_idem : forall f s, dropwhile f (dropwhile f s) = dropwhile f s.
Proof.
  intros f s. induction s as [|c s IH]; simpl; auto. destruct (f c) eqn:E; auto. simpl. rewrite E. reflexivity.
Qed.

Lemma dropwhile_head : forall f s c r, dropwhile f s = c :: r -> f c = false.
Proof.
  intros f s. induction s as [|x s IH]; simpl; intros c r H; [discriminate|].
  destruct (f x) eqn:E; [eauto|congruence].
Qed.

Lemma dropwhile_suffix : forall f s, exists p, s = p ++ dropwhile f s /\ forallb f p = true.
Proof.
  intros f s. induction s as [|c s IH]; simpl.
  - exists []. auto.
  - destruct (f c) eqn:E.
    + destruct IH as (p & H1 & H2). exists (c :: p). simpl. rewrite E, H2. split; auto. f_equal. assumption.
    + exists []. auto.
Qed.

(** [s] is its stripped form with white space around. *)
Lemma strip_by_decomp : forall f s,
  exists a b, s = a ++ strip_by f s ++ b /\ forallb f a = true /\ forallb f b = true.
Proof.
  intros f s. destruct (dropwhile_suffix f s) as (a & Ha & Ha').
  destruct (dropwhile_suffix f (rev (dropwhile f s))) as (b & Hb & Hb').
  exists a, (rev b). unfold strip_by, lstrip_by, rstrip_by. split.
  - rewrite Ha at 1. f_equal. rewrite <- (rev_involutive (dropwhile f s)), Hb at 1.
    rewrite rev_app_distr. reflexivity.
  - split; auto. rewrite forallb_rev. assumption.
Qed.

Lemma strip_by_idem : forall f s, strip_by f (strip_by f s) = strip_by f s.
Proof.
  intros f s. destruct (strip_by_decomp f s) as (a & b & H & Ha & Hb).
  rewrite H at 2. rewrite strip_by_pre by assumption. rewrite strip_by_post by assumption. reflexivity.
Qed.

(* ------------------------------------------------------------------ *)
(** ** Padding *)

Lemma forallb_repeat : forall A (f : A -> bool) x n, f x = true -> forallb f (repeat x n) = true.
Proof. intros A f x n H. induction n; simpl; auto. rewrite H. assumption. Qed.

Lemma blanks_ws : forall n, forallb is_ws (repeat blank n) = true.
Proof. intro n. apply forallb_repeat. reflexivity. Qed.

Lemma blanks_num : forall n, forallb is_ws_num (repeat blank n) = true.
Proof. intro n. apply forallb_repeat. reflexivity. Qed.
Lemma nonws_num : forall s, forallb (fun c => negb (is_ws c)) s = true -> forallb (fun c => negb (is_ws_num c)) s = true.
Proof.
  intros s H. rewrite forallb_forall in *. intros c Hc. specialize (H c Hc). unfold is_ws_num. destruct (is_ws c); [discriminate|reflexivity].
Qed.
Lemma strip_rjust : forall w s, strip (rjust w s) = strip s.
Proof. intros. unfold rjust. apply strip_by_pre. apply blanks_ws. Qed.

Lemma strip_ljust : forall w s, strip (ljust w s) = strip s.
Proof. intros. unfold ljust. apply strip_by_post. apply blanks_ws. Qed.

Lemma rjust_length : forall w s, length s <= w -> length (rjust w s) = w.
Proof. intros. unfold rjust. rewrite app_length, repeat_length. lia. Qed.

Lemma ljust_length : forall w s, length s <= w -> length (ljust w s) = w.
Proof. intros. unfold ljust. rewrite app_length, repeat_length. lia. Qed.

Lemma rjust_full : forall w s, w <= length s -> rjust w s = s.
Proof. intros. unfold rjust. replace (w - length s) with 0 by lia. reflexivity. Qed.

Lemma ljust_full : forall w s, w <= length s -> ljust w s = s.
Proof. intros. unfold ljust. replace (w - length s) with 0 by lia. apply app_nil_r. Qed.

(* ------------------------------------------------------------------ *)
(** ** split *)

Definition nonws (s : str) : Prop := s <> [] /\ forallb (fun c => negb (is_ws c)) s = true.

Lemma split_by_ws_pre : forall ws a b, forallb ws a = true -> split_by ws (a ++ b) = split_by ws b.
Proof.
  intros ws a b. induction a as [|c a IH]; simpl; auto.
  intro H. apply andb_true_iff in H as [-> H]. auto.
Qed.

Lemma split_by_ws_nil : forall ws a, forallb ws a = true -> split_by ws a = [].
Proof. intros. rewrite <- (app_nil_r a), split_by_ws_pre by assumption. reflexivity. Qed.

Lemma split_by_tok : forall ws t b,
  t <> [] -> forallb (fun c => negb (ws c)) t = true ->
  match b with c :: _ => ws c = true | [] => True end ->
  split_by ws (t ++ b) = t :: split_by ws b.
Proof.
  intros ws t. induction t as [|c t IH]; intros b Hne Ht Hb; [congruence|].
  simpl in Ht. apply andb_true_iff in Ht as [Hc Ht]. apply negb_true_iff in Hc.
  simpl. rewrite Hc. destruct t as [|c' t].
  - simpl. destruct b as [|d b]; auto. rewrite Hb. reflexivity.
  - simpl in Ht. apply andb_true_iff in Ht as [Hc' Ht]. simpl app at 1.
    cbv beta iota. rewrite (proj1 (negb_true_iff _) Hc').
    change (c' :: t ++ b) with ((c' :: t) ++ b).
    rewrite IH; auto; [congruence|]. simpl. rewrite Hc'. assumption.
Qed.

(** A text made of tokens, each preceded by white space; white space at the end. *)
Fixpoint spaced (l : list (str * str)) : str :=
  match l with
  | [] => []
  | (w, t) :: r => w ++ t ++ spaced r
  end.
Lemma split_spaced : forall l tail,
  Forall (fun p => fst p <> [] /\ forallb is_ws (fst p) = true /\ nonws (snd p)) l ->
  forallb is_ws tail = true ->
  split (spaced l ++ tail) = map snd l.
Proof.
  intros l tail H Htail. induction H as [|[w t] l (Hw & Hws & Ht & Htn) HF IH]; simpl in *.
  - apply split_by_ws_nil. assumption.
  - unfold split in *. rewrite <- app_assoc, split_by_ws_pre by assumption.
    rewrite <- app_assoc. rewrite split_by_tok; auto.
    + f_equal. assumption.
    + destruct l as [|[w' t'] l'].
      * simpl. destruct tail as [|c tail]; auto. simpl in Htail. apply andb_true_iff in Htail. tauto.
      * inversion HF as [|? ? (Hw' & Hws' & _) _]; subst. simpl in *.
        destruct w' as [|c w']; [congruence|]. simpl in *. apply andb_true_iff in Hws'. tauto.
Qed.

(* ------------------------------------------------------------------ *)
(** ** splitlines *)

Definition no_lb (lb : N -> bool) (s : str) : bool := forallb (fun c => negb (lb c)) s.

Lemma splitlines_line : forall lb keep l rest,
  lb LF = true -> no_lb lb l = true ->
  splitlines lb keep (l ++ LF :: rest) = (if keep then l ++ [LF] else l) :: splitlines lb keep rest.
Proof.
  intros lb keep l rest HLF. induction l as [|c l IH]; intro H.
  - cbn [app splitlines]. rewrite HLF. destruct rest as [|c r].
    + destruct keep; reflexivity.
    + cbn. destruct keep; reflexivity.
  - simpl in H. apply andb_true_iff in H as [Hc H]. apply negb_true_iff in Hc.
    cbn [app splitlines]. rewrite Hc. rewrite IH by assumption. destruct keep; reflexivity.
Qed.

Definition unlines (ls : list str) : str := concat (map (fun l => l ++ [LF]) ls).

Lemma unlines_cons : forall l ls, unlines (l :: ls) = l ++ LF :: unlines ls.
Proof. intros. unfold unlines. simpl. rewrite <- app_assoc. reflexivity. Qed.

Lemma unlines_app : forall a b, unlines (a ++ b) = unlines a ++ unlines b.
Proof. intros. unfold unlines. rewrite map_app, concat_app. reflexivity. Qed.

Lemma splitlines_unlines : forall lb keep ls,
  lb LF = true -> forallb (no_lb lb) ls = true ->
  splitlines lb keep (unlines ls) = if keep then map (fun l => l ++ [LF]) ls else ls.
Proof.
  intros lb keep ls HLF. induction ls as [|l ls IH]; intro H; simpl in H.
  - destruct keep; reflexivity.
  - apply andb_true_iff in H as [H1 H2]. rewrite unlines_cons, splitlines_line by assumption.
    rewrite IH by assumption. destruct keep; reflexivity.
Qed.

(** Concatenating the kept lines gives the text back. *)
Lemma splitlines_join : forall lb s, concat (splitlines lb true s) = s.
Proof.
  intros lb s. remember (length s) as n eqn:En. assert (Hn : length s <= n) by lia. clear En.
  revert s Hn. induction n as [|n IH]; intros s Hn.
  - destruct s; [reflexivity|simpl in Hn; lia].
  - destruct s as [|c r]; [reflexivity|]. cbn [splitlines]. simpl in Hn.
    destruct (lb c).
    + destruct r as [|c' r']; [reflexivity|].
      destruct ((c =? 13) && (c' =? 10))%N.
      * cbn. f_equal. f_equal. apply IH. simpl in Hn. lia.
      * change (concat ([c] :: splitlines lb true (c' :: r'))) with (c :: concat (splitlines lb true (c' :: r'))).
        f_equal. apply IH. lia.
    + specialize (IH r ltac:(lia)). destruct (splitlines lb true r) as [|l ls]; simpl in *.
      * congruence.
      * f_equal. assumption.
Qed.

(* ------------------------------------------------------------------ *)
(** ** Iteration over indices *)

Lemma flat_map_seq : forall A B (rs : list A) (f : Z -> list B) (g : A -> list B),
  (forall i r, nth_error rs i = Some r -> f (Z.of_nat i) = g r) ->
  flat_map f (map Z.of_nat (seq 0 (length rs))) = flat_map g rs.
Proof.
  intros A B rs f g.
  assert (Hgen : forall k, (forall i r, nth_error rs i = Some r -> f (Z.of_nat (k + i)) = g r) ->
                 flat_map f (map Z.of_nat (seq k (length rs))) = flat_map g rs).
  { induction rs as [|r rs IH]; intros k H; simpl; auto. f_equal.
    - rewrite <- (Nat.add_0_r k). apply H. reflexivity.
    - apply IH. intros i r' Hi. replace (S k + i) with (k + S i) by lia. apply H. assumption. }
  intro H. apply Hgen. exact H.
Qed.

Lemma map_seq_nth : forall A B (rs : list A) (f : Z -> B) (g : A -> B),
  (forall i r, nth_error rs i = Some r -> f (Z.of_nat i) = g r) ->
  map f (map Z.of_nat (seq 0 (length rs))) = map g rs.
Proof.
  intros A B rs f g.
  assert (Hgen : forall k, (forall i r, nth_error rs i = Some r -> f (Z.of_nat (k + i)) = g r) ->
                 map f (map Z.of_nat (seq k (length rs))) = map g rs).
  { induction rs as [|r rs IH]; intros k H; simpl; auto. f_equal.
    - rewrite <- (Nat.add_0_r k). apply H. reflexivity.
    - apply IH. intros i r' Hi. replace (S k + i) with (k + S i) by lia. apply H. assumption. }
  intro H. apply Hgen. exact H.
Qed.
