(** Proofs of the container properties C01-C04, C06-C12. *)
From Verif Require Import PyBase PyNum PyVal Utf8 Tools DsNodes DsHeaders DsGroups Ds55 Ds58 Ds2414 Uff
  Facts Scan Container Append.
From Coq Require Import Lia Sorted.
Open Scope nat_scope.

(** The delimiters of a file, as a list of positions without repetition. *)
Definition delimiters (data : bytes) (ps : list nat) : Prop :=
  NoDup ps /\ forall i, In i ps <-> delim_at data i.

Lemma delimiters_tags : forall data, delimiters data (tags data).
Proof. intro data. split; [apply tags_NoDup|apply tags_In]. Qed.

Lemma delimiters_length : forall data ps, delimiters data ps -> length ps = length (tags data).
Proof.
  intros data ps [Hn Hi]. assert (Ht := tags_NoDup data). apply Nat.le_antisymm.
  - apply NoDup_incl_length; auto. intros i H. apply tags_In, Hi. assumption.
  - apply NoDup_incl_length; auto. intros i H. apply Hi, tags_In. assumption.
Qed.

Lemma c01 : forall blocks : list block,
  blocks <> [] -> Forall framed blocks ->
  exists u, uff_new (Some (file_of blocks)) = Ok u /\
    get_n_sets (Some (file_of blocks)) u = Ok (u, length blocks) /\
    get_set_types (Some (file_of blocks)) u = Ok (u, map (fun b => type_in (b_body b)) blocks) /\
    forall i b, nth_error blocks i = Some b ->
      exists s e, nth_error (block_ind u) i = Some (s, e) /\
        s = length (file_of (firstn i blocks)) /\
        e = s + length (b_open b) + length (b_body b) /\
        extract_block (file_of blocks) (s, e) = b_open b ++ b_body b.
Proof.
  intros blocks _ H. exists (view (file_of blocks)). rewrite uff_new_view. split; [reflexivity|].
  rewrite (view_framed blocks H). repeat split.
  intros i b Hi. cbn [block_ind].
  assert (Hn : forall off, nth_error (block_extents off blocks) i
             = Some (off + length (file_of (firstn i blocks)),
                     off + length (file_of (firstn i blocks)) + length (b_open b) + length (b_body b))).
  { clear H. revert i Hi. induction blocks as [|b0 bl IH]; intros i Hi off; [destruct i; discriminate|].
    destruct i as [|i]; simpl in *.
    - injection Hi as ->. rewrite Nat.add_0_r. reflexivity.
    - rewrite (IH i Hi). unfold file_of. simpl. rewrite app_length. f_equal. f_equal; lia. }
  specialize (Hn 0). simpl in Hn. eexists _, _. split; [exact Hn|]. split; [reflexivity|]. split; [reflexivity|].
  assert (Hr := block_extents_read blocks [] []). rewrite app_nil_r in Hr. simpl in Hr.
  apply (f_equal (fun l => nth_error l i)) in Hr. rewrite !nth_error_map, Hn, Hi in Hr. simpl in Hr. congruence.
Qed.

Lemma c02 : forall data u,
  exists u', refresh (Some data) u = Ok (u', true) /\ refreshed u' = true /\
  forall ps, delimiters data ps -> 2 <= length ps ->
    n_sets u' = length ps / 2 /\ length (set_types u') = n_sets u' /\ length (set_formats u') = n_sets u' /\
    length (block_ind u') = n_sets u' /\
    (forall i s e, nth_error (block_ind u') i = Some (s, e) ->
       s < e /\ e + 6 <= length data /\ delim_at data s /\ delim_at data e) /\
    (forall i j s e s' e', nth_error (block_ind u') i = Some (s, e) -> nth_error (block_ind u') j = Some (s', e') ->
       i < j -> e < s').
Proof.
  intros data u. rewrite refresh_some. eexists. split; [reflexivity|]. split; [destruct (extents data); reflexivity|].
  intros ps Hps Hlen. rewrite (delimiters_length _ _ Hps) in *.
  assert (Hl : length (extents data) = length (tags data) / 2).
  { unfold extents. rewrite pairs_length. apply Nat.div2_div. }
  destruct (extents data) as [|p0 l0] eqn:E.
  { cbn [length] in Hl. assert (1 <= length (tags data) / 2) by (apply Nat.div_le_lower_bound; lia). lia. }
  unfold view. cbn [n_sets set_types set_formats block_ind]. rewrite !map_length.
  rewrite E. split; [assumption|]. repeat split.
  - intros. apply (pairs_lt (tags data) (tags_sorted data)). fold (extents data). rewrite E.
    eapply nth_error_In; eauto.
  - apply tags_bound. apply nth_error_In in H. rewrite <- E in H. apply pairs_In in H. tauto.
  - apply nth_error_In in H. rewrite <- E in H. apply pairs_In in H as [H _]. apply tags_In in H. apply H.
  - apply nth_error_In in H. rewrite <- E in H. apply pairs_In in H as [H _]. apply tags_In in H. apply H.
  - apply nth_error_In in H. rewrite <- E in H. apply pairs_In in H as [_ H]. apply tags_In in H. apply H.
  - apply nth_error_In in H. rewrite <- E in H. apply pairs_In in H as [_ H]. apply tags_In in H. apply H.
  - intros i j s e s' e' Hi Hj Hij. rewrite <- E in Hi, Hj.
    destruct (pairs_ordered (tags data) (tags_sorted data) i j s e s' e' Hi Hj Hij) as (_ & H & _). assumption.
Qed.

Lemma write_sets_add : forall c file u ds fd, ds <> [] ->
  write_sets c file u ds (lit "add") fd = write_list c Add fd file u ds.
Proof. intros c file u ds fd H. destruct ds; [congruence|reflexivity]. Qed.

Lemma view_types_length : forall d, length (set_types (view d)) = n_sets (view d).
Proof. intro d. apply map_length. Qed.
Lemma view_bi_length : forall d, length (block_ind (view d)) = n_sets (view d).
Proof. reflexivity. Qed.

Lemma c03 : forall c fd old u ds file' u' ps,
  closed old -> delimiters old ps -> Nat.Even (length ps) ->
  write_sets c (Some old) u ds (lit "add") fd = (file', u', None) ->
  exists new v0 vnew v, file' = Some (old ++ new) /\
    uff_new (Some old) = Ok v0 /\ uff_new (Some new) = Ok vnew /\ uff_new file' = Ok v /\
    (n_sets v <> 0 -> u' = v) /\
    n_sets v = n_sets v0 + n_sets vnew /\
    (forall i, i < n_sets v0 ->
       nth_error (block_ind v) i = nth_error (block_ind v0) i /\
       nth_error (set_types v) i = nth_error (set_types v0) i /\
       forall p, nth_error (block_ind v0) i = Some p ->
         extract_block (old ++ new) p = extract_block old p) /\
    (forall i s e, nth_error (block_ind vnew) i = Some (s, e) ->
       nth_error (block_ind v) (n_sets v0 + i) = Some (length old + s, length old + e) /\
       nth_error (set_types v) (n_sets v0 + i) = nth_error (set_types vnew) i /\
       extract_block (old ++ new) (length old + s, length old + e) = extract_block new (s, e)).
Proof.
  intros c fd old u ds file' u' ps Hc Hps Hev H.
  rewrite (delimiters_length _ _ Hps) in Hev.
  destruct ds as [|d ds]; [discriminate|]. rewrite write_sets_add in H by discriminate.
  destruct (write_list_add_prefix _ _ _ _ _ _ _ _ H) as [new ->].
  exists new, (view old), (view new), (view (old ++ new)). rewrite !uff_new_view.
  do 4 (split; [reflexivity|]).
  split.
  { intro Hn. eapply write_list_add_view; eauto; [discriminate|].
    unfold view in Hn. cbn [n_sets] in Hn. intro E. rewrite E in Hn. apply Hn. reflexivity. }
  rewrite (view_app old new Hc Hev).
  cbn [n_sets block_ind set_types].
  split; [reflexivity|]. split.
  - intros i Hi. split; [|split].
    + apply nth_error_app1. assumption.
    + apply nth_error_app1. rewrite view_types_length. assumption.
    + intros [s e] Hp. apply extract_block_app. simpl. apply nth_error_In in Hp. eapply extents_bound; eauto.
  - intros i s e Hp. split; [|split].
    + rewrite nth_error_app2 by (rewrite view_bi_length; lia). rewrite view_bi_length.
      replace (n_sets (view old) + i - n_sets (view old)) with i by lia.
      rewrite nth_error_map, Hp. reflexivity.
    + rewrite nth_error_app2 by (rewrite view_types_length; lia). rewrite view_types_length.
      replace (n_sets (view old) + i - n_sets (view old)) with i by lia. reflexivity.
    + apply (extract_block_shift old new (s, e)).
Qed.

(** Any bytes appended after a line break, complete or not. *)
Lemma c12 : forall c fd old ds file' ps,
  closed old -> delimiters old ps -> Nat.Even (length ps) ->
  stop_add c fd old ds file' ->
  exists v0 v, uff_new (Some old) = Ok v0 /\ uff_new (Some file') = Ok v /\
    n_sets v0 = length ps / 2 /\ n_sets v0 <= n_sets v /\
    forall i, i < n_sets v0 ->
       nth_error (block_ind v) i = nth_error (block_ind v0) i /\
       nth_error (set_types v) i = nth_error (set_types v0) i /\
       forall p, nth_error (block_ind v0) i = Some p -> extract_block file' p = extract_block old p.
Proof.
  intros c fd old ds file' ps Hc Hps Hev Hs. apply stop_add_prefix in Hs as [p ->].
  rewrite (delimiters_length _ _ Hps) in *.
  exists (view old), (view (old ++ p)). rewrite !uff_new_view. do 2 (split; [reflexivity|]).
  assert (Hn : n_sets (view old) = length (tags old) / 2).
  { unfold view, extents. cbn [n_sets]. rewrite pairs_length. apply Nat.div2_div. }
  split; [assumption|].
  destruct (view_app_prefix old p Hc) as (bi & st & sf & H1 & H2 & H3 & H4).
  split; [lia|]. intros i Hi. rewrite H1, H2. unfold view in Hi. cbn [n_sets] in Hi.
  split; [|split].
  - apply nth_error_app1. assumption.
  - apply nth_error_app1. unfold view. cbn [set_types]. rewrite map_length. assumption.
  - intros [s e] Hp. apply extract_block_app. simpl. apply nth_error_In in Hp. eapply extents_bound; eauto.
Qed.

(** The k-th set of a file, as a caller expects it. *)
Definition set_at (data : bytes) (ho : bool) (k : Z) : result dict :=
  if ((0 <=? k) && (k <? Z.of_nat (length (extents data))))%Z
  then match nth_error (extents data) (Z.to_nat k) with
       | Some p => extract_set (block_type (extract_block data p)) (extract_block data p) ho
       | None => Err IndexError
       end
  else Err (PyException "Cannot read data-set: number to high or to low").

Lemma read_set_view : forall data k ho,
  read_set (Some data) (view data) k ho = do d <- set_at data ho k ;; Ok (view data, d).
Proof.
  intros data k ho. unfold read_set, set_at. rewrite sync_view. cbn [rbind].
  change (n_sets (view data)) with (length (extents data)).
  change (block_ind (view data)) with (extents data).
  destruct (0 <=? k)%Z eqn:E1, (k <? Z.of_nat (length (extents data)))%Z eqn:E2;
    rewrite ?Z.leb_le, ?Z.leb_gt, ?Z.ltb_lt, ?Z.ltb_ge in *.
  - assert (H1 : (Z.of_nat (length (extents data)) - 1 <? k)%Z = false) by (apply Z.ltb_ge; lia).
    assert (H2 : (k <? 0)%Z = false) by (apply Z.ltb_ge; lia). rewrite H1, H2. cbn [orb andb].
    destruct (nth_error (extents data) (Z.to_nat k)) as [p|] eqn:E3; [|reflexivity].
    cbn [of_option rbind]. unfold view at 1. cbn [set_types]. rewrite nth_error_map, E3. reflexivity.
  - assert (H1 : (Z.of_nat (length (extents data)) - 1 <? k)%Z = true) by (apply Z.ltb_lt; lia).
    rewrite H1. reflexivity.
  - assert (H2 : (k <? 0)%Z = true) by (apply Z.ltb_lt; lia). rewrite H2, orb_true_r. reflexivity.
  - assert (H2 : (k <? 0)%Z = true) by (apply Z.ltb_lt; lia). rewrite H2, orb_true_r. reflexivity.
Qed.

Lemma read_all_view : forall data ho l,
  read_all (Some data) (view data) l ho = do ds <- rmap (set_at data ho) l ;; Ok (view data, ds).
Proof.
  intros data ho l. induction l as [|k l IH]; [reflexivity|].
  cbn [read_all]. rewrite read_set_view. unfold rmap in *. cbn [map rseq].
  destruct (set_at data ho k) as [d|e]; [|reflexivity]. cbn [rbind]. rewrite IH.
  destruct (rseq (map (set_at data ho) l)); reflexivity.
Qed.

(** What read_sets must return for a list of numbers. *)
Definition wanted (data : bytes) (s : selection) : list Z :=
  match s with
  | SelAll => map Z.of_nat (seq 0 (length (extents data)))
  | SelOne n => [n]
  | SelList l => l
  end.
Lemma c06 : forall data s ho,
  read_sets (Some data) (view data) s ho =
  do ds <- try_any (rmap (set_at data ho) (wanted data s)) (PyException "Error when reading data-set(s).") ;;
  Ok (view data, match ds with [d] => One d | _ => Many ds end).
Proof.
  intros data s ho. unfold read_sets. rewrite sync_view. cbn [rbind].
  rewrite read_all_view. change (n_sets (view data)) with (length (extents data)). fold (wanted data s).
  destruct (rmap (set_at data ho) (wanted data s)) as [ds|[]]; reflexivity.
Qed.
