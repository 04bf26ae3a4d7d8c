(** C04 for all files that end in a delimiter without a line break. *)
From Coq Require Import String List NArith ZArith Bool Lia.
Import ListNotations.
From Verif Require Import PyBase PyNum PyVal Utf8 Tools DsNodes DsHeaders Uff Facts Scan Container Append ContainerThms Utf8Facts Lines Stored PropContainer.
From Coq Require Import Lia.
Open Scope string_scope.
Open Scope list_scope.
Open Scope nat_scope.

Lemma delim_tail : forall s, delim_at s 0 -> exists r, s = TAG ++ r.
Proof. intros s [H _]. cbn [skipn] in H. exists (skipn 6 s). rewrite <- (firstn_skipn 6 s) at 1. rewrite H. reflexivity. Qed.
(** Of two delimiters in a row without a line break between them only the second counts. *)
Lemma tags_double : forall s, delim_at s 0 -> tags (TAG ++ s) = map (Nat.add 6) (tags s).
Proof.
  intros s H. destruct (delim_tail s H) as [r ->]. rewrite tags_app.
  replace (filter _ (seq 0 (length TAG))) with (@nil nat); [reflexivity|].
  cbn. destruct r; reflexivity.
Qed.
Lemma pairs_snoc : forall l x, Nat.Even (S (length l)) -> exists s l', l = l' ++ [s] /\ Nat.Even (length l') /\ pairs (l ++ [x]) = pairs l' ++ [(s, x)].
Proof.
  intro l. induction l as [|a|a b l IH] using list_ind2; intros x He.
  - destruct He as [k Hk]. cbn in Hk. lia.
  - exists a, []. repeat split. exists 0. reflexivity.
  - destruct (IH x) as (s & l' & -> & H1 & H2); [destruct He as [k Hk]; exists (k - 1); cbn [length] in *; lia|].
    exists s, (a :: b :: l'). split; [reflexivity|]. split; [destruct H1 as [k Hk]; exists (S k); cbn [length]; lia|].
    cbn [app pairs]. rewrite H2. reflexivity.
Qed.
Lemma slice_longer : forall (a b c : bytes) s, s <= length a -> extract_block (a ++ b ++ c) (s, length (a ++ b)) = extract_block (a ++ b) (s, length a) ++ b.
Proof.
  intros a b c s H. unfold extract_block, slice. cbn [fst snd]. rewrite !app_length.
  rewrite !skipn_app. replace (s - length a) with 0 by lia. cbn [skipn]. rewrite !firstn_app, skipn_length.
  rewrite (firstn_all2 (n := length a + length b - s)) by (rewrite skipn_length; lia).
  rewrite (firstn_all2 (n := length a - s)) by (rewrite skipn_length; lia).
  replace (length a + length b - s - (length a - s)) with (length b) by lia. rewrite Nat.sub_diag.
  rewrite firstn_all, Nat.sub_diag. cbn [firstn]. rewrite !app_nil_r. reflexivity.
Qed.

(** Whatever is added (the added text begins with a delimiter): the earlier sets
    but the last are the same; the last one reaches over its own delimiter, which
    is now text at its end; the delimiter that opens the first added set closes it.
    So the added sets are off by one delimiter: one set added is not found at all. *)
Theorem C04_all_refuted : forall c fd pre u ds new u' n,
  closed pre -> (exists ps, delimiters (pre ++ lit "    -1") ps /\ length ps = 2 * n) ->
  write_sets c (Some (pre ++ lit "    -1")) u ds (lit "add") fd = (Some ((pre ++ lit "    -1") ++ new), u', None) ->
  delim_at new 0 ->
  exists v0 v vnew k s, uff_new (Some (pre ++ lit "    -1")) = Ok v0 /\ uff_new (Some ((pre ++ lit "    -1") ++ new)) = Ok v /\
    uff_new (Some new) = Ok vnew /\ n_sets v0 = S k /\ n = S k /\
    (forall qs, delimiters new qs -> n_sets v = n_sets v0 + Nat.div2 (length qs - 1)) /\
    (forall i, i < k -> nth_error (block_ind v) i = nth_error (block_ind v0) i /\
       forall p, nth_error (block_ind v0) i = Some p -> extract_block ((pre ++ lit "    -1") ++ new) p = extract_block (pre ++ lit "    -1") p) /\
    nth_error (block_ind v0) k = Some (s, length pre) /\
    nth_error (block_ind v) k = Some (s, length pre + 6) /\
    extract_block ((pre ++ lit "    -1") ++ new) (s, length pre + 6) = extract_block (pre ++ lit "    -1") (s, length pre) ++ lit "    -1" /\
    (forall i st en, nth_error (block_ind v) (S k + i) = Some (st, en) -> exists q, st = length (pre ++ lit "    -1") + q /\ 0 < q /\ delim_at new q).
Proof.
  intros c fd pre u ds new u' n Hc (ps & Hps & Hn) Hw Hd. change (lit "    -1") with TAG in *.
  rewrite (delimiters_length _ _ Hps) in Hn. clear Hps ps.
  assert (T0 : tags (pre ++ TAG) = tags pre ++ [length pre]).
  { rewrite tags_app_closed by assumption. change (tags TAG) with [0]. cbn [map]. rewrite Nat.add_0_r. reflexivity. }
  assert (Hz : In 0 (tags new)) by (apply tags_In; assumption).
  assert (Tn : exists t, tags new = 0 :: t /\ Forall (fun q => 0 < q) t).
  { assert (Hs := tags_sorted new). destruct (tags new) as [|q t]; [contradiction|]. inversion Hs as [|? ? _ Hf]; subst.
    destruct Hz as [->|Hz]; [exists t; auto|]. rewrite Forall_forall in Hf. specialize (Hf 0 Hz). lia. }
  destruct Tn as (t & Et & Hpos).
  assert (T1 : tags ((pre ++ TAG) ++ new) = tags pre ++ [length pre + 6] ++ map (Nat.add (length pre + 6)) t).
  { rewrite <- app_assoc. rewrite tags_app_closed by assumption. rewrite tags_double by assumption. rewrite Et. cbn [map app].
    f_equal. f_equal. rewrite map_map. apply map_ext. intro. lia. }
  rewrite T0, app_length in Hn. cbn [length] in Hn.
  destruct (pairs_snoc (tags pre) (length pre)) as (s & l' & El & Hev & P0); [exists n; lia|].
  assert (P1 : pairs (tags ((pre ++ TAG) ++ new)) = pairs l' ++ (s, length pre + 6) :: pairs (map (Nat.add (length pre + 6)) t)).
  { rewrite T1, El, <- !app_assoc. rewrite pairs_app by assumption. reflexivity. }
  assert (Hin : In s (tags pre)) by (rewrite El, in_app_iff; cbn; auto).
  assert (Hs : s + 6 <= length pre) by (apply tags_bound; assumption).
  assert (Hk : n = S (length (pairs l'))).
  { rewrite El, app_length in Hn. cbn [length] in Hn. rewrite pairs_length. destruct Hev as [j Hj]. rewrite Hj, Nat.div2_double. lia. }
  assert (Hlt : length (tags pre) <= length (tags (pre ++ TAG))) by (rewrite T0, app_length; lia).
  exists (view (pre ++ TAG)), (view ((pre ++ TAG) ++ new)), (view new), (length (pairs l')), s.
  split; [apply uff_new_view|]. split; [apply uff_new_view|]. split; [apply uff_new_view|].
  assert (E0 : extents (pre ++ TAG) = pairs l' ++ [(s, length pre)]) by (unfold extents; rewrite T0; exact P0).
  assert (E1 : extents ((pre ++ TAG) ++ new) = pairs l' ++ (s, length pre + 6) :: pairs (map (Nat.add (length pre + 6)) t)) by exact P1.
  unfold view. cbn [n_sets block_ind]. rewrite E0, E1. rewrite !app_length. cbn [length].
  split; [lia|]. split; [assumption|]. split.
  { intros qs Hq. rewrite (delimiters_length _ _ Hq), Et. rewrite (pairs_length (map _ _)), map_length. cbn [length]. rewrite Nat.sub_succ, Nat.sub_0_r. lia. }
  split.
  { intros i Hi. rewrite !nth_error_app1 by assumption. split; [reflexivity|]. intros p Hp.
    apply extract_block_app. apply nth_error_In in Hp. destruct p as [x y]. cbn [snd]. apply (extents_bound (pre ++ TAG) x y).
    rewrite E0, in_app_iff. auto. }
  split; [rewrite nth_error_app2, Nat.sub_diag by lia; reflexivity|].
  split; [rewrite nth_error_app2, Nat.sub_diag by lia; reflexivity|].
  split.
  { rewrite <- app_assoc. change (length pre + 6) with (length pre + length TAG). rewrite <- app_length. apply slice_longer. lia. }
  intros i st en H. rewrite nth_error_app2 in H by lia. replace (S (length (pairs l')) + i - length (pairs l')) with (S i) in H by lia.
  cbn [nth_error] in H. apply nth_error_In in H. apply pairs_In in H as [H _]. apply in_map_iff in H as (q & <- & Hq).
  exists q. split; [reflexivity|]. rewrite Forall_forall in Hpos. split; [auto|]. apply tags_In. rewrite Et. right. assumption.
Qed.
Print Assumptions C04_all_refuted.
Example C04_all_example : exists new u', closed (removelast (L ["    -1"; "    99"; "abc"]) ++ [LF]) /\
  write_sets noclock (Some ((removelast (L ["    -1"; "    99"; "abc"]) ++ [LF]) ++ lit "    -1")) uff0 [ex_82 [1; 2; 3]%Z] (lit "add") true
    = (Some (((removelast (L ["    -1"; "    99"; "abc"]) ++ [LF]) ++ lit "    -1") ++ new), u', None) /\ delim_at new 0 /\
  (exists ps, delimiters ((removelast (L ["    -1"; "    99"; "abc"]) ++ [LF]) ++ lit "    -1") ps /\ length ps = 2 * 1).
Proof.
  set (o := removelast (L ["    -1"; "    99"; "abc"]) ++ [LF]).
  set (f := match write_sets noclock (Some (o ++ lit "    -1")) uff0 [ex_82 [1; 2; 3]%Z] (lit "add") true with (Some f, _, _) => f | _ => [] end).
  exists (skipn (length o + 6) f), (view f). split; [right; eexists _, _; split; [reflexivity|auto]|].
  split; [vm_compute; reflexivity|]. split; [apply tag_head_spec; vm_compute; reflexivity|].
  eexists. split; [apply delimiters_tags|vm_compute; reflexivity].
Qed.
