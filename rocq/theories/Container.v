(** The container: refresh, framed blocks, appending. *)
From Verif Require Import PyBase PyNum PyVal Utf8 Tools DsNodes DsHeaders Uff Facts Scan.
From Coq Require Import Lia Sorted.
Open Scope nat_scope.

(* ------------------------------------------------------------------ *)
(** ** What refresh reports *)

(** The object as it must look for a file with the given contents: one set for
    each pair of consecutive delimiters. *)
Definition extents (data : bytes) : list (nat * nat) := pairs (tags data).
Definition view (data : bytes) : uff :=
  {| block_ind := extents data; refreshed := true; n_sets := length (extents data);
     set_types := map (fun p => block_type (extract_block data p)) (extents data);
     set_formats := map (fun _ => 0%Z) (extents data) |}.

Lemma refresh_some : forall data u,
  refresh (Some data) u =
  Ok (match extents data with
      | [] => {| block_ind := block_ind u; refreshed := true; n_sets := n_sets u;
                 set_types := set_types u; set_formats := set_formats u |}
      | _ => view data
      end, true).
Proof.
  intros data u. unfold refresh. rewrite block_inds_tags. simpl. fold (extents data). unfold view.
  destruct (extents data); reflexivity.
Qed.

Lemma refresh_view : forall data u, extents data <> [] -> refresh (Some data) u = Ok (view data, true).
Proof. intros data u H. rewrite refresh_some. destruct (extents data) eqn:E; [congruence|reflexivity]. Qed.

Lemma view_nil : forall data, extents data = [] ->
  view data = {| block_ind := []; refreshed := true; n_sets := 0; set_types := []; set_formats := [] |}.
Proof. intros data H. unfold view. rewrite H. reflexivity. Qed.

Lemma uff_new_view : forall data, uff_new (Some data) = Ok (view data).
Proof.
  intro data. unfold uff_new. rewrite refresh_some. simpl.
  destruct (extents data) eqn:E; [rewrite view_nil by assumption|]; reflexivity.
Qed.

(** A refresh after the file grew. *)
Lemma refresh_grow : forall d0 d1, (extents d0 <> [] -> extents d1 <> []) ->
  refresh (Some d1) (view d0) = Ok (view d1, true).
Proof.
  intros d0 d1 H. rewrite refresh_some. destruct (extents d1) eqn:E; [|reflexivity].
  rewrite (view_nil d1) by assumption. destruct (extents d0) eqn:E0.
  - rewrite (view_nil d0) by assumption. reflexivity.
  - exfalso. apply H; congruence.
Qed.

Lemma sync_view : forall f data, sync f (view data) = Ok (view data).
Proof. reflexivity. Qed.

(* ------------------------------------------------------------------ *)
(** ** Bounds of the extents *)

Lemma tags_bound : forall s i, In i (tags s) -> i + 6 <= length s.
Proof.
  intros s i H. apply tags_In in H as [H _].
  assert (Hl := f_equal (@length N) H). rewrite firstn_length, skipn_length in Hl. simpl length in Hl. lia.
Qed.

Lemma tags_from_sorted : forall s off, StronglySorted lt (tags_from off s) /\
  Forall (fun i => off <= i) (tags_from off s).
Proof.
  induction s as [|c s IH]; intro off; simpl; [split; constructor|].
  destruct (IH (S off)) as [H1 H2].
  assert (H3 : Forall (fun i => off < i) (tags_from (S off) s)).
  { eapply Forall_impl; [|exact H2]. simpl. lia. }
  destruct (tag_head (c :: s)).
  - split; constructor; auto. eapply Forall_impl; [|exact H3]. simpl. lia.
  - split; auto. eapply Forall_impl; [|exact H3]. simpl. lia.
Qed.

Lemma tags_sorted : forall s, StronglySorted lt (tags s).
Proof. intro s. apply tags_from_sorted. Qed.

Lemma tags_NoDup : forall s, NoDup (tags s).
Proof. intro s. rewrite tags_filter. apply NoDup_filter. apply seq_NoDup. Qed.

(** Extents are increasing and do not overlap. *)
Lemma pairs_ordered : forall l, StronglySorted lt l ->
  forall i j s e s' e', nth_error (pairs l) i = Some (s, e) -> nth_error (pairs l) j = Some (s', e') ->
  i < j -> s < e /\ e < s' /\ s' < e'.
Proof.
  intros l. induction l as [|x|x y l IH] using list_ind2; intros Hs i j s e s' e' Hi Hj Hij.
  - destruct i; discriminate.
  - destruct i; discriminate.
  - inversion Hs as [|? ? Hs1 Hf1]; subst. inversion Hs1 as [|? ? Hs2 Hf2]; subst.
    simpl in Hi, Hj. destruct j as [|j]; [lia|]. destruct i as [|i].
    + injection Hi as <- <-. inversion Hf1; subst.
      assert (Hin : In s' l /\ In e' l /\ s' < e').
      { clear - Hj Hs2. revert j Hj. induction l as [|a|a b l IHl] using list_ind2; intros j Hj.
        - destruct j; discriminate.
        - destruct j; discriminate.
        - inversion Hs2 as [|? ? Ha Hb]; subst. inversion Ha; subst. destruct j.
          + injection Hj as <- <-. inversion Hb; subst. simpl. auto.
          + destruct (IHl ltac:(assumption) j Hj) as (? & ? & ?). simpl. auto. }
      destruct Hin as (Hin1 & Hin2 & Hin3). rewrite Forall_forall in Hf2. auto.
    + eapply (IH Hs2 i j); eauto. lia.
Qed.

Lemma pairs_In : forall l s e, In (s, e) (pairs l) -> In s l /\ In e l.
Proof.
  intro l. induction l as [|x|x y l IH] using list_ind2; simpl; try tauto.
  intros s e [H|H]; [injection H as <- <-; auto|]. destruct (IH _ _ H). auto.
Qed.

Lemma pairs_lt : forall l, StronglySorted lt l -> forall s e, In (s, e) (pairs l) -> s < e.
Proof.
  intro l. induction l as [|x|x y l IH] using list_ind2; intros Hs s e; simpl; try tauto.
  inversion Hs as [|? ? Hs1 Hf1]; subst. inversion Hs1; subst. intros [H|H]; [|eauto].
  injection H as <- <-. inversion Hf1; subst. assumption.
Qed.

(* ------------------------------------------------------------------ *)
(** ** Framed blocks *)

(** A delimiter line: the six characters, optionally padded with blanks to
    column 80, with a Unix or DOS line break. *)
Definition delim_line (l : bytes) : Prop :=
  l = TAG ++ [LF] \/ l = TAG ++ [CR; LF]
  \/ l = TAG ++ repeat blank 74 ++ [LF] \/ l = TAG ++ repeat blank 74 ++ [CR; LF].

Record block := { b_open : bytes; b_body : bytes; b_close : bytes }.
Definition block_bytes (b : block) : bytes := b_open b ++ b_body b ++ b_close b.
(** The body contains no delimiter (seen with the closing line behind it). *)
Definition framed (b : block) : Prop :=
  delim_line (b_open b) /\ delim_line (b_close b) /\
  (forall i, i < length (b_body b) -> ~ delim_at (b_body b ++ b_close b) i).
Definition file_of (l : list block) : bytes := concat (map block_bytes l).

Fixpoint first_line (s : bytes) : bytes :=
  match s with
  | [] => []
  | c :: r => if is_lb_bytes c then [] else c :: first_line r
  end.
(** The integer in the first six columns of the first line, or 0. *)
Definition type_in (body : bytes) : Z :=
  match py_int_bytes (firstn 6 (first_line body)) with Ok z => z | Err _ => 0%Z end.

Lemma delim_line_tags : forall l, delim_line l -> tags l = [0].
Proof. intros l [-> | [-> | [-> | ->]]]; vm_compute; reflexivity. Qed.

Lemma delim_line_closed : forall l, delim_line l -> closed l.
Proof.
  intros l H. right. destruct H as [-> | [-> | [-> | ->]]].
  - exists TAG, LF. auto.
  - exists (TAG ++ [CR]), LF. auto.
  - exists (TAG ++ repeat blank 74), LF. rewrite app_assoc. auto.
  - exists (TAG ++ repeat blank 74 ++ [CR]), LF. rewrite <- !app_assoc. auto.
Qed.

Lemma tags_body : forall body cl, tags cl = [0] ->
  (forall i, i < length body -> ~ delim_at (body ++ cl) i) -> tags (body ++ cl) = [length body].
Proof.
  intros body cl Hc Hb. rewrite tags_app, Hc. simpl. rewrite Nat.add_0_r.
  assert (Hf : filter (fun i => tag_head (skipn i (body ++ cl))) (seq 0 (length body)) = []).
  { assert (Ha : forall l, (forall i, In i l -> i < length body) ->
             filter (fun i => tag_head (skipn i (body ++ cl))) l = []).
    { induction l as [|i l IH]; intro Hl; simpl; auto.
      destruct (tag_head (skipn i (body ++ cl))) eqn:E.
      - apply tag_head_spec in E. exfalso. apply (Hb i); auto. apply Hl. left. reflexivity.
      - apply IH. intros. apply Hl. right. assumption. }
    apply Ha. intros i Hi. apply in_seq in Hi. lia. }
  rewrite Hf. reflexivity.
Qed.

Lemma block_tags : forall b, framed b -> tags (block_bytes b) = [0; length (b_open b) + length (b_body b)].
Proof.
  intros b (Ho & Hc & Hb). unfold block_bytes. rewrite tags_app_closed by (apply delim_line_closed; assumption).
  rewrite delim_line_tags by assumption. rewrite tags_body; auto. apply delim_line_tags. assumption.
Qed.

Lemma delim_line_nonnil : forall l, delim_line l -> l <> [].
Proof. intros l [-> | [-> | [-> | ->]]]; discriminate. Qed.

Lemma block_closed : forall b, framed b -> closed (block_bytes b).
Proof.
  intros b (Ho & Hc & Hb). unfold block_bytes. rewrite app_assoc. apply closed_app.
  - apply delim_line_closed. assumption.
  - left. apply delim_line_nonnil. assumption.
Qed.

Fixpoint block_extents (off : nat) (l : list block) : list (nat * nat) :=
  match l with
  | [] => []
  | b :: r => (off, off + length (b_open b) + length (b_body b))
              :: block_extents (off + length (block_bytes b)) r
  end.

Lemma extents_app : forall a b, closed a -> Nat.Even (length (tags a)) ->
  extents (a ++ b) = extents a ++ map (fun p => (length a + fst p, length a + snd p)) (extents b).
Proof.
  intros a b Hc He. unfold extents. rewrite tags_app_closed by assumption.
  rewrite pairs_app by assumption. rewrite pairs_map. reflexivity.
Qed.

Lemma block_extents_shift : forall l n off,
  map (fun p => (n + fst p, n + snd p)) (block_extents off l) = block_extents (n + off) l.
Proof.
  induction l as [|b l IH]; intros n off; simpl; auto. rewrite IH. f_equal; f_equal; lia.
Qed.

Lemma file_extents : forall l, Forall framed l -> extents (file_of l) = block_extents 0 l.
Proof.
  intros l H. induction H as [|b l Hb Hl IH]; [reflexivity|].
  unfold file_of. simpl. fold (file_of l). rewrite extents_app.
  - unfold extents at 1. rewrite block_tags by assumption. cbn [pairs app]. rewrite IH.
    rewrite block_extents_shift. rewrite Nat.add_0_r. reflexivity.
  - apply block_closed. assumption.
  - rewrite block_tags by assumption. exists 1. reflexivity.
Qed.

Lemma file_closed : forall l, Forall framed l -> closed (file_of l).
Proof.
  intros l H. apply closed_concat. rewrite Forall_map. eapply Forall_impl; [|exact H]. apply block_closed.
Qed.

Lemma block_extents_length : forall l off, length (block_extents off l) = length l.
Proof. induction l; intro off; simpl; auto. Qed.

Lemma file_of_cons : forall b l, file_of (b :: l) = block_bytes b ++ file_of l.
Proof. reflexivity. Qed.

Lemma block_extents_read : forall l pre post,
  map (extract_block (pre ++ file_of l ++ post)) (block_extents (length pre) l)
  = map (fun b => b_open b ++ b_body b) l.
Proof.
  induction l as [|b l IH]; intros pre post; [reflexivity|].
  cbn [block_extents map]. f_equal.
  - rewrite file_of_cons. unfold block_bytes, extract_block. cbn [fst snd].
    rewrite <- !app_assoc. rewrite (app_assoc (b_open b)).
    rewrite <- Nat.add_assoc, <- (app_length (b_open b)). apply slice_app_mid.
  - rewrite <- (IH (pre ++ block_bytes b) post). rewrite app_length. rewrite file_of_cons.
    rewrite <- !app_assoc. reflexivity.
Qed.

Lemma splitlines_open : forall o body, delim_line o ->
  exists l, splitlines_bytes false (o ++ body) = l :: splitlines_bytes false body.
Proof.
  intros o body [-> | [-> | [-> | ->]]]; unfold splitlines_bytes.
  - exists TAG. rewrite <- app_assoc. apply (splitlines_line is_lb_bytes false TAG body); reflexivity.
  - exists TAG. unfold TAG. cbn. reflexivity.
  - exists (TAG ++ repeat blank 74). rewrite <- !app_assoc. rewrite (app_assoc TAG).
    apply (splitlines_line is_lb_bytes false (TAG ++ repeat blank 74) body); reflexivity.
  - exists (TAG ++ repeat blank 74). rewrite <- !app_assoc. rewrite (app_assoc TAG).
    assert (H : forall l, no_lb is_lb_bytes l = true ->
              splitlines is_lb_bytes false (l ++ [CR; LF] ++ body) = l :: splitlines is_lb_bytes false body).
    { induction l as [|c l IH]; intro Hl; [reflexivity|].
      simpl in Hl. apply andb_true_iff in Hl as [Hc Hl]. apply negb_true_iff in Hc.
      change ((c :: l) ++ [CR; LF] ++ body) with (c :: l ++ [CR; LF] ++ body).
      cbn [splitlines]. rewrite Hc, IH by assumption. reflexivity. }
    apply H. reflexivity.
Qed.

Lemma splitlines_first : forall body,
  match nth_error (splitlines_bytes false body) 0 with
  | Some l => l = first_line body
  | None => body = []
  end.
Proof.
  induction body as [|c r IH]; [reflexivity|]. unfold splitlines_bytes in *. cbn [splitlines first_line].
  destruct (is_lb_bytes c).
  - destruct r as [|c' r']; [reflexivity|]. destruct ((c =? 13) && (c' =? 10))%N; reflexivity.
  - destruct (splitlines is_lb_bytes false r) as [|l ls]; simpl in *.
    + subst. reflexivity.
    + congruence.
Qed.

Lemma block_type_open : forall o body, delim_line o -> block_type (o ++ body) = type_in body.
Proof.
  intros o body Ho. unfold block_type, type_in. destruct (splitlines_open o body Ho) as [l ->].
  assert (H := splitlines_first body).
  change (nth_error (l :: splitlines_bytes false body) 1) with (nth_error (splitlines_bytes false body) 0).
  destruct (nth_error (splitlines_bytes false body) 0) as [l'|].
  - rewrite H. reflexivity.
  - rewrite H. reflexivity.
Qed.

(** The view of a file made of framed blocks. *)
Lemma view_framed : forall l, Forall framed l ->
  view (file_of l) = {| block_ind := block_extents 0 l; refreshed := true; n_sets := length l;
                        set_types := map (fun b => type_in (b_body b)) l;
                        set_formats := map (fun _ => 0%Z) l |}.
Proof.
  intros l H. unfold view. rewrite (file_extents l H). rewrite block_extents_length. f_equal.
  - rewrite <- map_map with (f := extract_block (file_of l)).
    assert (Hr := block_extents_read l [] []). rewrite app_nil_r in Hr. simpl in Hr. rewrite Hr.
    rewrite map_map. apply map_ext_in. intros b Hb. apply block_type_open.
    rewrite Forall_forall in H. apply H in Hb. apply Hb.
  - assert (Hm : forall A B (l1 : list A) (l2 : list B), length l1 = length l2 ->
               map (fun _ => 0%Z) l1 = map (fun _ => 0%Z) l2).
    { induction l1; destruct l2; simpl; intros; try discriminate; auto. f_equal. apply IHl1. lia. }
    apply Hm. apply block_extents_length.
Qed.

(* ------------------------------------------------------------------ *)
(** ** Appending *)

(** Sets of [a] seen in [a ++ b]: same extents, and the bytes read are the same. *)
Lemma extract_block_app : forall a b p, snd p <= length a -> extract_block (a ++ b) p = extract_block a p.
Proof.
  intros a b [s e] H. unfold extract_block, slice. simpl in *.
  rewrite skipn_app, firstn_app, skipn_length.
  replace (e - s - (length a - s)) with 0 by lia. simpl. apply app_nil_r.
Qed.

Lemma extract_block_shift : forall a b p,
  extract_block (a ++ b) (length a + fst p, length a + snd p) = extract_block b p.
Proof.
  intros a b [s e]. unfold extract_block, slice. simpl.
  rewrite skipn_app. rewrite skipn_short by lia. simpl.
  replace (length a + s - length a) with s by lia.
  replace (length a + e - (length a + s)) with (e - s) by lia. reflexivity.
Qed.

Lemma extents_bound : forall a s e, In (s, e) (extents a) -> e <= length a.
Proof. intros a s e H. apply pairs_In in H as [_ H]. apply tags_bound in H. lia. Qed.

Lemma view_app : forall a b, closed a -> Nat.Even (length (tags a)) ->
  view (a ++ b) =
  {| block_ind := block_ind (view a) ++ map (fun p => (length a + fst p, length a + snd p)) (block_ind (view b));
     refreshed := true; n_sets := n_sets (view a) + n_sets (view b);
     set_types := set_types (view a) ++ set_types (view b);
     set_formats := set_formats (view a) ++ set_formats (view b) |}.
Proof.
  intros a b Hc He. unfold view. simpl. rewrite extents_app by assumption.
  rewrite app_length, map_length, !map_app, !map_map. f_equal. f_equal.
  - apply map_ext_in. intros [s e] Hp. rewrite extract_block_app; auto. simpl. eapply extents_bound; eauto.
  - apply map_ext. intros p. rewrite extract_block_shift. reflexivity.
Qed.

(** Whatever is appended after a line break, the sets already paired stay. *)
Lemma view_app_prefix : forall a b, closed a ->
  exists bi st sf,
  block_ind (view (a ++ b)) = block_ind (view a) ++ bi /\
  set_types (view (a ++ b)) = set_types (view a) ++ st /\
  set_formats (view (a ++ b)) = set_formats (view a) ++ sf /\
  n_sets (view (a ++ b)) = n_sets (view a) + length bi.
Proof.
  intros a b Hc. unfold view. simpl. unfold extents. rewrite tags_app_closed by assumption.
  destruct (pairs_app_prefix (tags a) (map (Nat.add (length a)) (tags b))) as [r Hr]. rewrite Hr.
  rewrite !map_app. rewrite app_length. eexists _, _, _. repeat split; try reflexivity. f_equal.
  apply map_ext_in. intros [s e] Hp. rewrite extract_block_app; auto. simpl. eapply extents_bound; eauto.
Qed.

(* ------------------------------------------------------------------ *)
(** ** Running the steps of a writer *)

Definition no_trunc (i : item) : Prop := match i with WTrunc => False | _ => True end.

Lemma run_items_append : forall l f, Forall no_trunc l ->
  run_items f l = (f ++ fst (run_items [] l), snd (run_items [] l)).
Proof.
  induction l as [|i l IH]; intros f H; simpl.
  - rewrite app_nil_r. reflexivity.
  - inversion H as [|? ? Hi Hl]; subst. destruct i as [r|b|]; simpl in Hi; try tauto.
    + destruct r as [s|e]; simpl.
      * destruct (utf8_encode s) as [b|e]; simpl; [|rewrite app_nil_r; reflexivity].
        rewrite (IH (f ++ b)) by assumption. rewrite (IH b) by assumption. simpl. rewrite app_assoc. reflexivity.
      * rewrite app_nil_r. reflexivity.
    + rewrite (IH (f ++ b)) by assumption. rewrite (IH b) by assumption. simpl. rewrite app_assoc. reflexivity.
Qed.
