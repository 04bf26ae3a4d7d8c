(** Properties C01-C04 and C06-C12: the file as a container of sets. *)
From Coq Require Import String List NArith ZArith Bool Lia.
Import ListNotations.
From Verif Require Import PyBase PyNum PyVal Utf8 Tools DsNodes DsHeaders DsGroups Ds55 Ds58 Ds2414 Uff
  Facts Scan Container Append ContainerThms.
Open Scope string_scope.
Open Scope list_scope.
Open Scope nat_scope.

(** Text lines as bytes, for the examples. *)
Definition L (ls : list string) : bytes := unlines (map lit ls).
Definition noclock : clock := {| now_date := lit "01-Jan-24"; now_time := lit "00:00:00" |}.

(* ------------------------------------------------------------------ *)
(** C01 *)
Theorem C01_framed_blocks : forall blocks : list block,
  blocks <> [] -> Forall framed blocks ->
  exists u, uff_new (Some (file_of blocks)) = Ok u /\
    get_n_sets (Some (file_of blocks)) u = Ok (u, length blocks) /\
    get_set_types (Some (file_of blocks)) u = Ok (u, map (fun b => type_in (b_body b)) blocks) /\
    forall i b, nth_error blocks i = Some b ->
      exists s e, nth_error (block_ind u) i = Some (s, e) /\
        s = length (file_of (firstn i blocks)) /\
        e = s + length (b_open b) + length (b_body b) /\
        extract_block (file_of blocks) (s, e) = b_open b ++ b_body b.
Proof. exact c01. Qed.
Print Assumptions C01_framed_blocks.

(** Two blocks, one with DOS line breaks and an imitation of the delimiter in
    the middle of a line, satisfy the hypotheses. *)
Definition ex_block1 : block :=
  {| b_open := TAG ++ [LF]; b_body := L ["    82"; "    -1 is not a delimiter here"]; b_close := TAG ++ [CR; LF] |}.
Definition ex_block2 : block :=
  {| b_open := TAG ++ repeat blank 74 ++ [LF]; b_body := lit "   151" ++ [CR; LF] ++ lit "no line break at the end";
     b_close := TAG ++ [LF] |}.
Lemma no_delim_dec : forall body cl,
  forallb (fun i => negb (tag_head (skipn i (body ++ cl)))) (seq 0 (length body)) = true ->
  forall i, i < length body -> ~ delim_at (body ++ cl) i.
Proof.
  intros body cl H i Hi Hd. apply tag_head_spec in Hd. rewrite forallb_forall in H.
  specialize (H i). rewrite Hd in H. simpl in H. assert (false = true) by (apply H; apply in_seq; lia). discriminate.
Qed.
Example C01_example : Forall framed [ex_block1; ex_block2].
Proof.
  repeat constructor; unfold delim_line; auto; apply no_delim_dec; vm_compute; reflexivity.
Qed.
Example C01_example_types : map (fun b => type_in (b_body b)) [ex_block1; ex_block2] = [82%Z; 151%Z].
Proof. vm_compute. reflexivity. Qed.

(* ------------------------------------------------------------------ *)
(** C02 *)
Theorem C02_refresh_total : forall data u,
  exists u', refresh (Some data) u = Ok (u', true) /\ refreshed u' = true /\
  forall ps, delimiters data ps -> 2 <= length ps ->
    n_sets u' = length ps / 2 /\ length (set_types u') = n_sets u' /\ length (set_formats u') = n_sets u' /\
    length (block_ind u') = n_sets u' /\
    (forall i s e, nth_error (block_ind u') i = Some (s, e) ->
       s < e /\ e + 6 <= length data /\ delim_at data s /\ delim_at data e) /\
    (forall i j s e s' e', nth_error (block_ind u') i = Some (s, e) -> nth_error (block_ind u') j = Some (s', e') ->
       i < j -> e < s').
Proof. exact c02. Qed.
Print Assumptions C02_refresh_total.
(** A file with three delimiters, the last without a line break. *)
Example C02_example : delimiters (L ["    -1"; "    15"; "    -1"; "junk"] ++ lit "    -1") [0; 14; 26].
Proof.
  change [0; 14; 26] with (tags (L ["    -1"; "    15"; "    -1"; "junk"] ++ lit "    -1")).
  apply delimiters_tags.
Qed.

(* ------------------------------------------------------------------ *)
(** C03 *)
Theorem C03_add_preserves : forall c fd old u ds file' u' ps,
  closed old -> delimiters old ps -> Nat.Even (length ps) ->
  write_sets c (Some old) u ds (lit "add") fd = (file', u', None) ->
  exists new v0 vnew v, file' = Some (old ++ new) /\
    uff_new (Some old) = Ok v0 /\ uff_new (Some new) = Ok vnew /\ uff_new file' = Ok v /\
    (n_sets v <> 0 -> u' = v) /\
    n_sets v = n_sets v0 + n_sets vnew /\
    (forall i, i < n_sets v0 ->
       nth_error (block_ind v) i = nth_error (block_ind v0) i /\
       nth_error (set_types v) i = nth_error (set_types v0) i /\
       forall p, nth_error (block_ind v0) i = Some p ->
         extract_block (old ++ new) p = extract_block old p) /\
    (forall i s e, nth_error (block_ind vnew) i = Some (s, e) ->
       nth_error (block_ind v) (n_sets v0 + i) = Some (length old + s, length old + e) /\
       nth_error (set_types v) (n_sets v0 + i) = nth_error (set_types vnew) i /\
       extract_block (old ++ new) (length old + s, length old + e) = extract_block new (s, e)).
Proof. exact c03. Qed.
Print Assumptions C03_add_preserves.

(** A foreign file with one set; a trace line is added. *)
Definition ex_old : bytes := L ["    -1"; "    99"; "whatever"; "    -1"].
Definition ex_82 (n : list Z) : dict :=
  [(KS "type", VInt 82); (KS "trace_num", VInt 2); (KS "nodes", vints n)].
Example C03_example :
  closed ex_old /\ delimiters ex_old [0; 23] /\
  snd (write_sets noclock (Some ex_old) (view ex_old) [ex_82 [1; 2; 3]%Z] (lit "add") true) = None.
Proof.
  split; [right; exists (removelast ex_old), LF; split; [vm_compute; reflexivity|auto]|]. split.
  - change [0; 23] with (tags ex_old). apply delimiters_tags.
  - vm_compute. reflexivity.
Qed.

(* ------------------------------------------------------------------ *)
(** C04: without a final line break the claim is false. *)

Definition ex_c04 : bytes := removelast (L ["    -1"; "    82"; "         1         2         0"; "NONE"; "         7         8"; "    -1"]).
Theorem C04_refuted :
  exists old ds file' u' d0 d1,
    old = removelast (old ++ [LF]) /\ delimiters (old ++ [LF]) [0; length old - 6] /\
    delimiters old [0; length old - 6] /\
    write_sets noclock (Some old) (view old) ds (lit "add") true = (Some file', u', None) /\
    read_sets (Some old) (view old) (SelOne 0) false = Ok (view old, One d0) /\
    read_sets (Some file') u' (SelOne 0) false = Ok (u', One d1) /\
    d0 <> d1 /\ n_sets u' = 1.
Proof.
  set (f := match write_sets noclock (Some ex_c04) (view ex_c04) [ex_82 [1; 2; 3]%Z] (lit "add") true with
            | (Some f, _, _) => f | _ => [] end).
  exists ex_c04, [ex_82 [1; 2; 3]%Z], f, (view f).
  eexists _, _. split; [vm_compute; reflexivity|].
  split. { change [0; length ex_c04 - 6] with (tags (ex_c04 ++ [LF])). apply delimiters_tags. }
  split. { change [0; length ex_c04 - 6] with (tags ex_c04). apply delimiters_tags. }
  split; [vm_compute; reflexivity|].
  split; [vm_compute; reflexivity|].
  split; [vm_compute; reflexivity|].
  split; [discriminate|vm_compute; reflexivity].
Qed.
Print Assumptions C04_refuted.

(* ------------------------------------------------------------------ *)
(** C06 *)

(** [set_at data ho k] (ContainerThms) is the k-th set as described by the type in
    its header, or the range error; [wanted] the list of numbers asked for. *)
Theorem C06_read_sets : forall data s ho,
  uff_new (Some data) = Ok (view data) /\
  read_sets (Some data) (view data) s ho =
  do ds <- try_any (rmap (set_at data ho) (wanted data s)) (PyException "Error when reading data-set(s).") ;;
  Ok (view data, match ds with [d] => One d | _ => Many ds end).
Proof. intros. split; [apply uff_new_view|apply c06]. Qed.
Print Assumptions C06_read_sets.

(** Any number outside the range makes the call raise. *)
Theorem C06_bad_index : forall data l ho k,
  In k l -> (k < 0 \/ Z.of_nat (length (extents data)) <= k)%Z ->
  exists e, read_sets (Some data) (view data) (SelList l) ho = Err e.
Proof.
  intros data l ho k Hin Hk. rewrite c06. cbn [wanted].
  assert (H : exists e, rmap (set_at data ho) l = Err e).
  { induction l as [|a l IH]; [destruct Hin|]. unfold rmap in *. cbn [map rseq].
    destruct Hin as [->|Hin].
    - assert (Hs : set_at data ho k = Err (PyException "Cannot read data-set: number to high or to low")).
      { unfold set_at. destruct ((0 <=? k) && (k <? Z.of_nat (length (extents data))))%Z eqn:E; auto.
        apply andb_true_iff in E as [E1 E2]. apply Z.leb_le in E1. apply Z.ltb_lt in E2. lia. }
      rewrite Hs. simpl. eauto.
    - destruct (set_at data ho a); simpl; eauto. destruct (IH Hin) as [e ->]. simpl. eauto. }
  destruct H as [e ->]. destruct e; simpl; eauto.
Qed.
Print Assumptions C06_bad_index.
Example C06_example :
  read_sets (Some ex_old) (view ex_old) SelAll false = Ok (view ex_old, One [(KS "type", VInt 99)]) /\
  read_sets (Some (ex_old ++ ex_old)) (view (ex_old ++ ex_old)) (SelList [1; 0]%Z) false
    = Ok (view (ex_old ++ ex_old), Many [[(KS "type", VInt 99)]; [(KS "type", VInt 99)]]).
Proof. split; vm_compute; reflexivity. Qed.

(* ------------------------------------------------------------------ *)
(** C07 *)
Theorem C07_refuted :
  exists old ds file' u' v,
    uff_new (Some old) = Ok (view old) /\
    write_sets noclock (Some old) (view old) ds (lit "overwrite") true = (file', u', None) /\
    uff_new file' = Ok v /\ get_n_sets file' u' = Ok (u', 1) /\ n_sets v = 0.
Proof.
  exists ex_old, [[(KS "type", VInt 99)]], (Some []), (view ex_old), (view []).
  repeat split; vm_compute; reflexivity.
Qed.
Print Assumptions C07_refuted.
(** The part that holds: the constructor always agrees with the file, and so does
    the object after a successful refresh or append if the file has a set. *)
Theorem C07_reported :
  (forall data, uff_new (Some data) = Ok (view data)) /\
  (forall data u u', refresh (Some data) u = Ok (u', true) -> n_sets (view data) <> 0 -> u' = view data) /\
  (forall c fd old u ds f' u', ds <> [] ->
     write_sets c (Some old) u ds (lit "add") fd = (Some f', u', None) -> n_sets (view f') <> 0 -> u' = view f').
Proof.
  assert (Hn : forall d, n_sets (view d) <> 0 -> extents d <> []).
  { intros d H E. apply H. unfold view. cbn [n_sets]. rewrite E. reflexivity. }
  split; [exact uff_new_view|]. split.
  - intros data u u' H Hd. rewrite refresh_view in H by auto. congruence.
  - intros c fd old u ds f' u' Hne H Hd. rewrite write_sets_add in H by assumption.
    eapply write_list_add_view; eauto.
Qed.
Print Assumptions C07_reported.

(* ------------------------------------------------------------------ *)
(** C08 *)
Theorem C08_refuted :
  exists u data u',
    uff_new None = Ok u /\ read_sets (Some data) u SelAll false = Ok (u', Many []) /\
    get_n_sets (Some data) u = Ok (u', 1).
Proof. exists uff0, ex_old, (view ex_old). repeat split; vm_compute; reflexivity. Qed.
Print Assumptions C08_refuted.
(** The part that holds: after get_n_sets, or for explicit numbers. *)
Theorem C08_after_creation : forall data u,
  uff_new None = Ok u -> n_sets (view data) <> 0 ->
  get_n_sets (Some data) u = Ok (view data, n_sets (view data)) /\
  (forall l ho, read_sets (Some data) u (SelList l) ho = read_sets (Some data) (view data) (SelList l) ho).
Proof.
  intros data u Hu Hn. injection Hu as <-.
  assert (He : extents data <> []).
  { intro E. apply Hn. unfold view. cbn [n_sets]. rewrite E. reflexivity. }
  split.
  - unfold get_n_sets, sync. cbn [refreshed]. rewrite refresh_view by assumption. reflexivity.
  - intros l ho. unfold read_sets. unfold sync at 1. cbn [refreshed]. rewrite refresh_view by assumption. reflexivity.
Qed.
Print Assumptions C08_after_creation.

(* ------------------------------------------------------------------ *)
(** C09 *)

(** A node set without coordinates: the writer raises after the header. *)
Definition ex_bad15 : dict := [(KS "type", VInt 15); (KS "node_nums", vints [1]%Z)].
Theorem C09_refuted :
  exists old d e file' u',
    write_sets noclock (Some old) (view old) [d] (lit "add") true = (file', u', Some e) /\ file' <> Some old /\
    exists e2 u2, write_sets noclock (Some old) (view old) [d] (lit "overwrite") true
                  = (Some (L ["    -1"; "    15"]), u2, Some e2).
Proof.
  exists ex_old, ex_bad15. eexists _, _, _. split; [vm_compute; reflexivity|]. split; [discriminate|].
  eexists _, _. vm_compute. reflexivity.
Qed.
Print Assumptions C09_refuted.
(** The block left open by a rejected write swallows the next set that is added. *)
Theorem C09_refuted_later :
  exists f1 u1 e f2 u2 d,
    write_sets noclock None uff0 [ex_bad15] (lit "add") true = (f1, u1, Some e) /\
    write_sets noclock f1 u1 [ex_82 [1; 2; 3]%Z] (lit "add") true = (f2, u2, None) /\
    read_sets f2 u2 SelAll false = Ok (u2, One d) /\ dget d (KS "type") = Some (VInt 15).
Proof.
  eexists _, _, _, _, _, _. split; [vm_compute; reflexivity|]. split; [vm_compute; reflexivity|].
  split; vm_compute; reflexivity.
Qed.
Print Assumptions C09_refuted_later.
(** The part that holds: in append mode a rejected write keeps the earlier bytes,
    and reopening finds the earlier sets unchanged. *)
Theorem C09_earlier_sets : forall c fd old u ds file' u' e,
  closed old -> ds <> [] ->
  write_sets c (Some old) u ds (lit "add") fd = (file', u', Some e) ->
  exists new, file' = Some (old ++ new) /\
  forall i, i < n_sets (view old) ->
    nth_error (block_ind (view (old ++ new))) i = nth_error (block_ind (view old)) i /\
    nth_error (set_types (view (old ++ new))) i = nth_error (set_types (view old)) i /\
    forall p, nth_error (block_ind (view old)) i = Some p -> extract_block (old ++ new) p = extract_block old p.
Proof.
  intros c fd old u ds file' u' e Hc Hne H. rewrite write_sets_add in H by assumption.
  destruct (write_list_add_prefix _ _ _ _ _ _ _ _ H) as [new ->]. exists new. split; [reflexivity|].
  destruct (view_app_prefix old new Hc) as (bi & st & sf & H1 & H2 & H3 & H4).
  intros i Hi. rewrite H1, H2. split; [|split].
  - apply nth_error_app1. assumption.
  - apply nth_error_app1. rewrite view_types_length. assumption.
  - intros [s f] Hp. apply extract_block_app. simpl. apply nth_error_In in Hp. eapply extents_bound; eauto.
Qed.
Print Assumptions C09_earlier_sets.

(* ------------------------------------------------------------------ *)
(** C10 *)
Definition supported : list Z :=
  [15; 18; 55; 58; 82; 151; 164; 1858; 2400; 2411; 2412; 2414; 2420; 2429; 2467]%Z.

Theorem C10_unsupported_read : forall t block ho, ~ In t supported -> extract_set t block ho = Ok [(KS "type", VInt t)].
Proof.
  intros t block ho Hn. unfold extract_set.
  repeat match goal with
  | |- context [(t =? ?k)%Z] =>
      destruct (Z.eqb_spec t k) as [E|_]; [exfalso; apply Hn; rewrite E; simpl; tauto|]
  end. reflexivity.
Qed.
Print Assumptions C10_unsupported_read.
Theorem C10_unsupported_write : forall c fd old u d ty,
  dget d (KS "type") = Some ty -> (forall k, In k supported -> py_eqZ ty k = false) ->
  (forall v, dget d (KS "data") = Some v -> exists v', np_nan_to_num v = Ok v') ->
  exists u', write_sets c (Some old) u [d] (lit "add") fd = (Some old, u', None) /\
             (u = view old -> u' = u).
Proof.
  intros c fd old u d ty Ht Hs Hd. rewrite write_sets_add by discriminate. cbn [write_list]. unfold write_set. rewrite Ht.
  assert (Hr : exists d1, match dget d (KS "data") with
               | None => Ok d
               | Some v => do v' <- np_nan_to_num v ;; Ok (dput d (KS "data") v')
               end = Ok d1).
  { destruct (dget d (KS "data")) as [v|]; [|eauto]. destruct (Hd v eq_refl) as [v' ->]. simpl. eauto. }
  destruct Hr as [d1 ->]. unfold write_dispatch. cbv zeta.
  repeat match goal with
  | |- context [py_eqZ ty ?k] => rewrite (Hs k) by (simpl; tauto)
  end.
  cbn [wp_items run_items]. rewrite refresh_some. cbn [w_exc w_file w_uff write_list].
  eexists. split; [reflexivity|]. intros ->. assert (Hg := refresh_grow old old (fun H => H)).
  rewrite refresh_some in Hg. congruence.
Qed.
Print Assumptions C10_unsupported_write.
Example C10_example : ~ In 99%Z supported /\ (forall k, In k supported -> py_eqZ (VInt 99) k = false) /\
  py_eqZ (VStr (lit "58")) 58 = false.
Proof.
  split; [simpl; lia|]. split; [|reflexivity]. intros k Hk. simpl in Hk.
  repeat destruct Hk as [<-|Hk]; try reflexivity. destruct Hk.
Qed.

(* ------------------------------------------------------------------ *)
(** C11 *)

(** The header line of a binary set has the letter b in column 7. *)
Definition ex_58b : bytes := L ["    -1"; "    58b     1     2          11          16     0     0           0           0"; "    -1"].
Theorem C11_refuted :
  exists data u, uff_new (Some data) = Ok u /\ n_sets u = 1 /\
    option_map (fun l => nth 6 l 0%N) (nth_error (splitlines_bytes false (extract_block data (nth 0 (block_ind u) (0, 0)))) 1)
      = Some 98%N (* 'b' *) /\
    get_set_formats (Some data) u = Ok (u, [0%Z]).
Proof. exists ex_58b, (view ex_58b). repeat split; vm_compute; reflexivity. Qed.
Print Assumptions C11_refuted.
(** What the code reports: 0 for every set of every file. *)
Theorem C11_always_zero : forall data u,
  uff_new (Some data) = Ok u -> get_set_formats (Some data) u = Ok (u, repeat 0%Z (n_sets u)).
Proof.
  intros data u H. rewrite uff_new_view in H. injection H as <-. unfold get_set_formats. rewrite sync_view.
  cbn [rbind]. f_equal. f_equal. unfold view. cbn [set_formats n_sets].
  induction (extents data); simpl; congruence.
Qed.
Print Assumptions C11_always_zero.

(* ------------------------------------------------------------------ *)
(** C12 *)
Theorem C12_crash_while_adding : forall c fd old ds file' ps,
  closed old -> delimiters old ps -> Nat.Even (length ps) ->
  stop_add c fd old ds file' ->
  exists v0 v, uff_new (Some old) = Ok v0 /\ uff_new (Some file') = Ok v /\
    n_sets v0 = length ps / 2 /\ n_sets v0 <= n_sets v /\
    forall i, i < n_sets v0 ->
       nth_error (block_ind v) i = nth_error (block_ind v0) i /\
       nth_error (set_types v) i = nth_error (set_types v0) i /\
       forall p, nth_error (block_ind v0) i = Some p -> extract_block file' p = extract_block old p.
Proof. exact c12. Qed.
Print Assumptions C12_crash_while_adding.
(** The steps meant by [stop_add] are those whose complete execution gives the file. *)
Theorem C12_steps : forall c m fd file u d,
  w_file (write_set c m fd file u d)
  = Some (fst (run_items (match m with Add => old_bytes file | Overwrite => [] end) (set_items c m fd d))).
Proof. exact write_set_items. Qed.
(** An interruption in the middle of the first delimiter line of a node set. *)
Example C12_example : stop_add noclock true ex_old [ex_bad15] (ex_old ++ lit "    -").
Proof.
  apply stop_first.
  destruct (set_items noclock Add true ex_bad15) as [|x l] eqn:E; [vm_compute in E; discriminate|].
  vm_compute in E. injection E as <- _.
  eapply stop_in_txt with (q := lit "1" ++ [LF] ++ lit "    15" ++ [LF]); vm_compute; reflexivity.
Qed.
