(** The delimiter scan of [refresh]: positions of delimiters in a file. *)
From Verif Require Import PyBase PyNum PyVal Tools DsNodes DsHeaders Uff Facts.
From Coq Require Import Lia.
Open Scope nat_scope.

(* ------------------------------------------------------------------ *)
(** ** Specification *)

(** A delimiter at position [i]: the six bytes [    -1], followed by the end of
    the file, by LF or CR, or by 74 blanks and at least one more byte. *)
Definition delim_at (data : bytes) (i : nat) : Prop :=
  firstn 6 (skipn i data) = [32; 32; 32; 32; 45; 49]%N /\
  (length data = i + 6
   \/ (exists c, nth_error data (i + 6) = Some c /\ (c = 10 \/ c = 13)%N)
   \/ (i + 80 < length data /\ firstn 74 (skipn (i + 6) data) = repeat 32%N 74)).

(** Whether a delimiter starts a text. *)
Definition tag_tail (r : bytes) : bool :=
  match r with
  | [] => true
  | c :: _ => is_lb_bytes c || (prefixb (repeat blank 74) r && Nat.ltb 74 (length r))
  end.
Definition tag_head (s : bytes) : bool := prefixb TAG s && tag_tail (skipn 6 s).

(** Positions of the delimiters of [s], counted from [off]. *)
Fixpoint tags_from (off : nat) (s : bytes) : list nat :=
  match s with
  | [] => []
  | _ :: r => if tag_head s then off :: tags_from (S off) r else tags_from (S off) r
  end.
Definition tags (s : bytes) : list nat := tags_from 0 s.

(* ------------------------------------------------------------------ *)

Lemma nth_error_skipn_head : forall A i (l : list A), nth_error l i = hd_error (skipn i l).
Proof. intros. rewrite nth_error_skipn. destruct (skipn i l); reflexivity. Qed.

Lemma tag_tail_spec : forall data i,
  firstn 6 (skipn i data) = TAG ->
  (tag_tail (skipn (i + 6) data) = true <->
  (length data = i + 6
   \/ (exists c, nth_error data (i + 6) = Some c /\ (c = 10 \/ c = 13)%N)
   \/ (i + 80 < length data /\ firstn 74 (skipn (i + 6) data) = repeat 32%N 74))).
Proof.
  intros data i Ht. rewrite nth_error_skipn_head.
  assert (Hl : 6 <= length (skipn i data)).
  { rewrite <- (firstn_skipn 6 (skipn i data)), Ht, app_length. simpl. lia. }
  rewrite skipn_length in Hl.
  assert (Hlen := skipn_length (i + 6) data).
  destruct (skipn (i + 6) data) as [|c r] eqn:E.
  - simpl in Hlen. split; auto. intros _. left. lia.
  - unfold tag_tail. simpl (length (c :: r)) in *. rewrite orb_true_iff, andb_true_iff, Nat.ltb_lt.
    rewrite prefixb_firstn, repeat_length, leqb_eq. unfold is_lb_bytes.
    rewrite orb_true_iff, !N.eqb_eq. simpl hd_error. unfold blank.
    split.
    + intros [H|[H1 H2]].
      * right; left. eauto.
      * right; right. split; [lia|assumption].
    + intros [H|[(c' & Hc & H)|[H1 H2]]].
      * lia.
      * left. injection Hc as ->. assumption.
      * right. split; [assumption|]. lia.
Qed.

Lemma tag_head_spec : forall data i, tag_head (skipn i data) = true <-> delim_at data i.
Proof.
  intros data i. unfold tag_head, delim_at. rewrite andb_true_iff, prefixb_firstn, leqb_eq, skipn_skipn_add.
  change (length TAG) with 6. change [32; 32; 32; 32; 45; 49]%N with TAG.
  split; intros [H1 H2]; (split; [exact H1|]); apply (tag_tail_spec data i H1); assumption.
Qed.

Lemma accept_tail : forall data i, prefixb TAG (skipn i data) = true ->
  accept data i = tag_tail (skipn (i + 6) data).
Proof.
  intros data i Hp. rewrite prefixb_firstn, leqb_eq in Hp.
  assert (Hs := tag_tail_spec data i Hp). change (length TAG) with 6 in Hp.
  assert (Hl : 6 <= length (skipn i data)).
  { rewrite <- (firstn_skipn 6 (skipn i data)), Hp, app_length. simpl. lia. }
  rewrite skipn_length in Hl. unfold accept.
  destruct (tag_tail (skipn (i + 6) data)).
  - destruct (proj1 Hs eq_refl) as [H|[(c & Hc & H)|[H1 H2]]].
    + rewrite H, Nat.eqb_refl. reflexivity.
    + destruct (Nat.eqb (i + 6) (length data)); auto. rewrite Hc.
      assert (i + 6 < length data) by (apply nth_error_Some; congruence).
      rewrite (proj2 (Nat.ltb_lt _ _)) by assumption. unfold is_lb_bytes.
      destruct H as [-> | ->]; reflexivity.
    + destruct (Nat.eqb (i + 6) (length data)); auto.
      rewrite (proj2 (Nat.ltb_lt (i + 80) _)) by assumption.
      unfold slice. replace (i + 80 - (i + 6)) with 74 by lia. rewrite H2.
      change (leqb (repeat 32%N 74) (repeat blank 74)) with true.
      match goal with |- (if ?b then _ else _) = _ => destruct b; reflexivity end.
  - destruct (Nat.eqb (i + 6) (length data)) eqn:E1.
    + apply Nat.eqb_eq in E1. discriminate (proj2 Hs (or_introl (eq_sym E1))).
    + destruct (Nat.ltb (i + 6) (length data) && _) eqn:E2.
      * apply andb_true_iff in E2 as [_ E2]. destruct (nth_error data (i + 6)) as [c|] eqn:Ec; [|discriminate].
        unfold is_lb_bytes in E2. rewrite orb_true_iff, !N.eqb_eq in E2.
        assert (false = true) by (apply Hs; right; left; eauto). discriminate.
      * destruct (Nat.ltb (i + 80) (length data) && _) eqn:E3; auto.
        apply andb_true_iff in E3 as [E3 E4]. apply Nat.ltb_lt in E3. apply leqb_eq in E4.
        unfold slice in E4. replace (i + 80 - (i + 6)) with 74 in E4 by lia.
        assert (false = true) by (apply Hs; right; right; auto). discriminate.
Qed.

Lemma find_from_tags : forall s pos,
  match find_from TAG s pos with
  | None => tags_from pos s = []
  | Some i => exists k, i = pos + k /\ k < length s /\ prefixb TAG (skipn k s) = true /\
              tags_from pos s = (if tag_head (skipn k s) then [i] else []) ++ tags_from (S i) (skipn (S k) s)
  end.
Proof.
  induction s as [|c s IH]; intro pos.
  - reflexivity.
  - cbn [find_from]. destruct (prefixb TAG (c :: s)) eqn:E.
    + exists 0. split; [lia|]. split; [simpl; lia|]. split; [exact E|]. cbn [tags_from skipn].
      destruct (tag_head (c :: s)); reflexivity.
    + specialize (IH (S pos)). assert (Hh : tag_head (c :: s) = false) by (unfold tag_head; rewrite E; reflexivity).
      destruct (find_from TAG s (S pos)) as [i|].
      * destruct IH as (k & -> & Hk & Hp & Ht). exists (S k). split; [lia|]. split; [simpl; lia|].
        split; [exact Hp|]. cbn [tags_from]. rewrite Hh. rewrite Ht. reflexivity.
      * cbn [tags_from]. rewrite Hh. assumption.
Qed.

Lemma scan_tags : forall fuel data start,
  start <= length data -> length data - start < fuel ->
  scan fuel data start = Ok (tags_from start (skipn start data)).
Proof.
  induction fuel as [|fuel IH]; intros data start Hs Hf; [lia|].
  cbn [scan]. unfold py_find. rewrite (proj2 (Nat.ltb_ge _ _)) by lia.
  assert (H := find_from_tags (skipn start data) start).
  destruct (find_from TAG (skipn start data) start) as [i|].
  - destruct H as (k & -> & Hk & Hp & ->). rewrite skipn_length in Hk.
    rewrite !skipn_skipn_add. rewrite skipn_skipn_add in Hp.
    rewrite IH by lia. simpl. rewrite accept_tail by assumption.
    assert (He : tag_head (skipn (start + k) data) = tag_tail (skipn (start + k + 6) data)).
    { unfold tag_head. rewrite Hp, skipn_skipn_add. reflexivity. }
    rewrite He. replace (start + S k) with (S (start + k)) by lia.
    destruct (tag_tail _); reflexivity.
  - rewrite H. reflexivity.
Qed.

(** The scan finds exactly the delimiters. *)
Lemma block_inds_tags : forall data, block_inds data = Ok (tags data).
Proof. intro data. unfold block_inds. rewrite scan_tags by lia. reflexivity. Qed.

Lemma tags_from_shift : forall s off, tags_from off s = map (Nat.add off) (tags s).
Proof.
  unfold tags. induction s as [|c s IH]; intro off; [reflexivity|].
  cbn [tags_from]. rewrite (IH (S off)), (IH 1).
  assert (Hm : map (Nat.add (S off)) (tags_from 0 s) = map (Nat.add off) (map (Nat.add 1) (tags_from 0 s))).
  { rewrite map_map. apply map_ext. intro. lia. }
  rewrite Hm. destruct (tag_head (c :: s)); cbn [map]; [rewrite Nat.add_0_r|]; reflexivity.
Qed.

Lemma tags_from_ext : forall a b off, tags_from off (a ++ b) =
  map (Nat.add off) (filter (fun i => tag_head (skipn i (a ++ b))) (seq 0 (length a)))
  ++ tags_from (off + length a) b.
Proof.
  induction a as [|c a IH]; intros b off.
  - simpl. rewrite Nat.add_0_r. reflexivity.
  - cbn [app tags_from length seq filter skipn]. rewrite IH.
    replace (S off + length a) with (off + S (length a)) by lia.
    rewrite <- seq_shift.
    assert (Hf : forall (f : nat -> bool) l, map (Nat.add off) (filter f (map S l)) =
                 map (Nat.add (S off)) (filter (fun i => f (S i)) l)).
    { intros f l. induction l as [|x l IHl]; simpl; auto. destruct (f (S x)); simpl; rewrite IHl; auto.
      f_equal. lia. }
    destruct (tag_head (c :: a ++ b)); cbn [map app]; rewrite Hf; cbn [skipn]; [rewrite Nat.add_0_r|]; reflexivity.
Qed.

(** [tags] lists, in increasing order, exactly the positions of delimiters. *)
Lemma tags_filter : forall s, tags s = filter (fun i => tag_head (skipn i s)) (seq 0 (length s)).
Proof.
  intro s. unfold tags. rewrite <- (app_nil_r s) at 1. rewrite tags_from_ext. simpl tags_from.
  rewrite !app_nil_r. rewrite map_id. reflexivity.
Qed.

Lemma tags_In : forall s i, In i (tags s) <-> delim_at s i.
Proof.
  intros s i. rewrite tags_filter, filter_In, tag_head_spec, in_seq. split; [tauto|].
  intro H. split; auto. destruct H as [H _]. split; [lia|].
  destruct (Nat.le_gt_cases (length s) i) as [Hl|Hl]; [|lia].
  rewrite skipn_short in H by assumption. discriminate.
Qed.

(** The scan seen on a concatenation. *)
Lemma tags_app : forall a b, tags (a ++ b) =
  filter (fun i => tag_head (skipn i (a ++ b))) (seq 0 (length a)) ++ map (Nat.add (length a)) (tags b).
Proof.
  intros a b. unfold tags at 1. rewrite tags_from_ext, tags_from_shift. rewrite map_id. reflexivity.
Qed.

(** A text that is empty or ends in a line break. *)
Definition closed (a : bytes) : Prop := a = [] \/ exists p c, a = p ++ [c] /\ (c = LF \/ c = CR).

Lemma TAG_no_lb : forall c, c = LF \/ c = CR -> ~ In c TAG.
Proof. intros c [-> | ->] H; simpl in H; unfold LF, CR in H; intuition discriminate. Qed.

Lemma prefixb_closed : forall p (c : N) (P b : bytes),
  ~ In c P -> prefixb P (p ++ c :: b) = prefixb P p.
Proof.
  induction p as [|x p IH]; intros c [|y P] b Hn; simpl; auto.
  - destruct (N.eqb_spec y c); auto. subst. exfalso. apply Hn. left. reflexivity.
  - rewrite IH; auto. intro. apply Hn. right. assumption.
Qed.

Lemma tag_head_closed : forall p c b, c = LF \/ c = CR -> tag_head (p ++ c :: b) = tag_head (p ++ [c]).
Proof.
  intros p c b Hc. unfold tag_head. rewrite !prefixb_closed by (apply TAG_no_lb; assumption).
  destruct (prefixb TAG p) eqn:E; [cbn [andb]|reflexivity].
  assert (Hl := prefixb_length _ _ E). change (length TAG) with 6 in Hl.
  rewrite !skipn_app. replace (6 - length p) with 0 by lia. change (skipn 0 (c :: b)) with (c :: b). change (skipn 0 [c]) with [c].
  assert (Hb : ~ In c (repeat blank 74)).
  { intro H. apply repeat_spec in H. destruct Hc as [-> | ->]; discriminate. }
  destruct (skipn 6 p) as [|d r].
  - simpl. unfold is_lb_bytes. destruct Hc as [-> | ->]; reflexivity.
  - cbn [app tag_tail]. destruct (is_lb_bytes d); auto. cbn [orb].
    change (d :: r ++ c :: b) with ((d :: r) ++ c :: b).
    change (d :: r ++ [c]) with ((d :: r) ++ [c]).
    rewrite !prefixb_closed by assumption.
    destruct (prefixb (repeat blank 74) (d :: r)) eqn:E2; auto. apply prefixb_length in E2.
    rewrite repeat_length in E2. rewrite !app_length.
    assert (H1 : 74 <? length (d :: r) + length (c :: b) = true) by (apply Nat.ltb_lt; simpl length at 2; lia).
    assert (H2 : 74 <? length (d :: r) + length [c] = true) by (apply Nat.ltb_lt; simpl length at 2; lia).
    rewrite H1, H2. reflexivity.
Qed.

(** What follows a line break does not change the delimiters before it. *)
Lemma tags_app_closed : forall a b, closed a -> tags (a ++ b) = tags a ++ map (Nat.add (length a)) (tags b).
Proof.
  intros a b [-> | (p & c & -> & Hc)].
  - simpl. rewrite map_id. reflexivity.
  - rewrite tags_app. f_equal. rewrite tags_filter. apply filter_ext_in. intros i Hi. apply in_seq in Hi.
    rewrite app_length in Hi. simpl in Hi. rewrite <- app_assoc. simpl.
    rewrite !skipn_app. replace (i - length p) with 0 by lia. simpl. apply tag_head_closed. assumption.
Qed.

Lemma closed_app : forall a b, closed b -> b <> [] \/ closed a -> closed (a ++ b).
Proof.
  intros a b [-> | (p & c & -> & Hc)] H.
  - rewrite app_nil_r. destruct H; [congruence|assumption].
  - right. exists (a ++ p), c. rewrite app_assoc. auto.
Qed.

Lemma closed_app2 : forall a b, closed a -> closed b -> closed (a ++ b).
Proof. intros. apply closed_app; auto. Qed.

Lemma closed_concat : forall l, Forall closed l -> closed (concat l).
Proof.
  intros l H. induction H; simpl; [left; reflexivity|]. apply closed_app2; assumption.
Qed.

Lemma closed_unlines : forall ls, closed (unlines ls).
Proof.
  intro ls. apply closed_concat. rewrite Forall_map. apply Forall_forall. intros l _.
  right. exists l, LF. auto.
Qed.

(* ------------------------------------------------------------------ *)
(** ** Pairs *)

Lemma pairs_length : forall l, length (pairs l) = Nat.div2 (length l).
Proof.
  intro l. remember (length l) as n eqn:En. assert (Hn : length l <= n) by lia. rewrite En. clear En.
  revert l Hn. induction n as [|n IH]; intros l Hn.
  - destruct l; [reflexivity|simpl in Hn; lia].
  - destruct l as [|a [|b l]]; try reflexivity. simpl in *. f_equal. apply IH. lia.
Qed.

Lemma list_ind2 : forall A (P : list A -> Prop),
  P [] -> (forall a, P [a]) -> (forall a b l, P l -> P (a :: b :: l)) -> forall l, P l.
Proof.
  intros A P H0 H1 H2 l.
  assert (P l /\ forall a, P (a :: l)) as [H _]; [|exact H].
  induction l as [|x l [IH1 IH2]]; split; auto.
Qed.

Lemma pairs_app : forall a b, Nat.Even (length a) -> pairs (a ++ b) = pairs a ++ pairs b.
Proof.
  intros a b. induction a as [|x|x y l IH] using list_ind2; intro He; simpl in *; auto.
  - destruct He as [k Hk]. lia.
  - f_equal. apply IH. destruct He as [k Hk]. exists (k - 1). lia.
Qed.

Lemma pairs_app_prefix : forall a b, exists r, pairs (a ++ b) = pairs a ++ r.
Proof.
  intros a b. induction a as [|x|x y l IH] using list_ind2.
  - simpl. eauto.
  - simpl. destruct b; eauto.
  - destruct IH as [r Hr]. exists r. simpl. rewrite Hr. reflexivity.
Qed.

Lemma pairs_map : forall (f : nat -> nat) l, pairs (map f l) = map (fun p => (f (fst p), f (snd p))) (pairs l).
Proof.
  intros f l. induction l as [|x|x y l IH] using list_ind2; simpl; auto. f_equal. assumption.
Qed.
