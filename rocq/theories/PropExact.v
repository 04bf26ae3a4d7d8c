(** Exact descriptions where a property holds only in part: what an object
    reports after writing (C07), what it reads from a file that appeared later
    (C08), what overwriting leaves (C09), mode names (C10) and which entities of a
    group survive (C50). *)
From Coq Require Import String List NArith ZArith Bool Lia.
Import ListNotations.
From Verif Require Import PyBase PyNum PyVal Utf8 Tools DsNodes DsHeaders DsGroups Ds55 Ds58 Ds2414 Uff Facts Scan Container Append
  ContainerThms IntFacts DictFacts Lines Stored Cells Rows RtNodes RtHeads RtElems RtGroups Witness PropGroups PropContainer.
From Coq Require Import Lia.
Open Scope string_scope.
Open Scope list_scope.
Open Scope nat_scope.

(* ------------------------------------------------------------------ *)
(** ** C07 *)

(** After a successful call the object has the sets of the file if there are any.
    If there are none, it keeps what it reported before. *)
Theorem C07_exact : forall c m fd file u ds f' u', write_sets c file u ds (mode_name m) fd = (Some f', u', None) ->
  (n_sets (view f') <> 0 -> u' = view f') /\
  (forall d, ds = [d] -> n_sets (view f') = 0 -> n_sets u' = n_sets u /\ set_types u' = set_types u /\ block_ind u' = block_ind u).
Proof.
  assert (Hn : forall d, n_sets (view d) <> 0 -> extents d <> []).
  { intros d H E. apply H. unfold view. cbn [n_sets]. rewrite E. reflexivity. }
  assert (Hz : forall d, n_sets (view d) = 0 -> extents d = []).
  { intros d H. unfold view in H. cbn [n_sets] in H. destruct (extents d); [reflexivity|discriminate]. }
  assert (Hset : forall c m fd file u d, w_exc (write_set c m fd file u d) = None ->
    exists b, w_file (write_set c m fd file u d) = Some b /\ refresh (Some b) u = Ok (w_uff (write_set c m fd file u d), true)).
  { intros c m fd file u d H. unfold write_set in *. cbv zeta in *. destruct (dget d (KS "type")) as [ty|]; [|discriminate].
    destruct (match dget d (KS "data") with None => Ok d | Some v => do v' <- np_nan_to_num v ;; Ok (dput d (KS "data") v') end) as [d1|e]; [|discriminate].
    match goal with H : context [run_items ?a ?l] |- _ => destruct (run_items a l) as [b [e|]] end; [discriminate|].
    rewrite refresh_some in *. cbn [w_exc w_file w_uff] in *. eexists. split; [reflexivity|]. apply refresh_some. }
  intros c m fd file u ds f' u' H. destruct ds as [|d ds]; [discriminate|]. unfold write_sets in H. rewrite parse_mode_name in H. cbn [write_list] in H.
  destruct (w_exc (write_set c m fd file u d)) eqn:Ee; [discriminate|]. destruct (Hset _ _ _ _ _ _ Ee) as (b & Hb & Hr). rewrite Hb in H. split.
  - intro Hv0. assert (Hv := Hn _ Hv0). destruct ds as [|d2 ds].
    + cbn [write_list] in H. injection H as <- <-. rewrite refresh_view in Hr by assumption. congruence.
    + refine (write_list_add_view (d2 :: ds) _ _ _ _ _ _ _ H Hv). discriminate.
  - intros d' Ed Hv. injection Ed as -> ->. cbn [write_list] in H. injection H as <- <-. apply Hz in Hv. rewrite refresh_some, Hv in Hr. cbn [rbind] in Hr.
    injection Hr as <-. repeat split.
Qed.
Print Assumptions C07_exact.
(** So every object reports sets that are not in the file after overwriting with
    an unsupported set, if it reported any before. *)
Theorem C07_stale : forall c fd file u z, ~ In z supported ->
  exists u', write_sets c file u [[(KS "type", VInt z)]] (lit "overwrite") fd = (Some [], u', None) /\
    get_n_sets (Some []) u' = Ok (u', n_sets u) /\ n_sets (view []) = 0.
Proof.
  intros c fd file u z Hz.
  assert (E : write_sets c file u [[(KS "type", VInt z)]] (lit "overwrite") fd =
    (Some [], {| block_ind := block_ind u; refreshed := true; n_sets := n_sets u; set_types := set_types u; set_formats := set_formats u |}, None)).
  { unfold write_sets. change (parse_mode (lit "overwrite")) with (@Ok wmode Overwrite). cbv iota beta. cbn [write_list]. unfold write_set.
    change (dget [(KS "type", VInt z)] (KS "type")) with (Some (VInt z)). change (dget [(KS "type", VInt z)] (KS "data")) with (@None pyval). cbv iota beta zeta.
    unfold write_dispatch. cbv zeta.
    assert (Hs : forall k, In k supported -> py_eqZ (VInt z) k = false).
    { intros k Hk. cbn [py_eqZ]. apply Z.eqb_neq. intros ->. contradiction. }
    repeat match goal with |- context [py_eqZ (VInt z) ?k] => rewrite (Hs k) by (simpl; tauto) end. reflexivity. }
  rewrite E. eexists. split; [reflexivity|]. split; reflexivity.
Qed.
Print Assumptions C07_stale.

(* ------------------------------------------------------------------ *)
(** ** C08: read_sets() of such an object gives nothing, whatever the file holds. *)
Theorem C08_all_refuted : forall u data ho, uff_new None = Ok u -> read_sets (Some data) u SelAll ho = Ok (view data, Many []).
Proof.
  intros u data ho H. injection H as <-. unfold read_sets, sync. cbn [refreshed n_sets seq map]. rewrite refresh_some. cbn [rbind read_all try_any shape_result].
  destruct (extents data) eqn:E; [rewrite view_nil by assumption|]; reflexivity.
Qed.
Print Assumptions C08_all_refuted.

(* ------------------------------------------------------------------ *)
(** ** C09: overwriting, rejected or not, leaves nothing of the old file. *)
Theorem C09_overwrite_forgets : forall c fd u ds old old', ds <> [] ->
  write_sets c old u ds (lit "overwrite") fd = write_sets c old' u ds (lit "overwrite") fd.
Proof.
  intros c fd u ds old old' H. destruct ds as [|d ds]; [congruence|]. unfold write_sets. change (parse_mode (lit "overwrite")) with (@Ok wmode Overwrite).
  cbv iota. cbn [write_list]. reflexivity.
Qed.
Print Assumptions C09_overwrite_forgets.
(** Adding: the bytes written before the exception stay; they depend on the set
    only, and the object is not changed. *)
Theorem C09_add_exact : forall c fd d, exists x e, forall old u,
  match e with
  | Some e => write_sets c (Some old) u [d] (lit "add") fd = (Some (old ++ x), u, Some e)
  | None => exists u', write_sets c (Some old) u [d] (lit "add") fd = (Some (old ++ x), u', None)
  end.
Proof.
  assert (R : forall l, Forall no_trunc l -> exists x e, forall start, run_items start l = (start ++ x, e)).
  { intros l Hl. exists (fst (run_items [] l)), (snd (run_items [] l)). intro s. rewrite (run_items_append l s Hl). destruct (run_items [] l). reflexivity. }
  intros c fd d. destruct (dget d (KS "type")) as [ty|] eqn:Et.
  2:{ exists [], (Some (PyException "Data-set's dictionary is missing the required 'type' key")). intros old u. unfold write_sets. cbn [write_list].
      change (parse_mode (lit "add")) with (@Ok wmode Add). cbv iota. cbn [write_list]. unfold write_set. rewrite Et. cbn [w_exc w_file w_uff]. rewrite app_nil_r. reflexivity. }
  destruct (match dget d (KS "data") with None => Ok d | Some v => do v' <- np_nan_to_num v ;; Ok (dput d (KS "data") v') end) as [d1|er] eqn:Ed.
  2:{ exists [], (Some er). intros old u. unfold write_sets. change (parse_mode (lit "add")) with (@Ok wmode Add). cbv iota. cbn [write_list]. unfold write_set. rewrite Et, Ed.
      cbn [w_exc w_file w_uff]. rewrite app_nil_r. reflexivity. }
  destruct (R (wp_items (write_dispatch c Add fd ty d1)) (add_no_trunc c fd ty d1)) as (x & e & HR).
  exists x, (option_map (wp_wrap (write_dispatch c Add fd ty d1)) e). intros old u.
  unfold write_sets. change (parse_mode (lit "add")) with (@Ok wmode Add). cbv iota. cbn [write_list]. unfold write_set. rewrite Et, Ed. cbv zeta. rewrite HR.
  destruct e as [e|]; cbn [option_map w_exc w_file w_uff]; [reflexivity|]. rewrite refresh_some. cbn [w_exc w_file w_uff]. eexists. reflexivity.
Qed.
Print Assumptions C09_add_exact.

(* ------------------------------------------------------------------ *)
(** ** C10: mode names in any case; any other name is rejected and nothing happens. *)
Theorem C10_mode_names : forall c file u ds s fd, ds <> [] ->
  (lower s = lit "add" -> write_sets c file u ds s fd = write_sets c file u ds (lit "add") fd) /\
  (lower s = lit "overwrite" -> write_sets c file u ds s fd = write_sets c file u ds (lit "overwrite") fd) /\
  (lower s <> lit "add" -> lower s <> lit "overwrite" -> write_sets c file u ds s fd = (file, u, Some (PyException "Unknown mode"))).
Proof.
  intros c file u ds s fd H. destruct ds as [|d ds]; [congruence|]. unfold write_sets, parse_mode. split; [|split].
  - intros ->. reflexivity.
  - intros ->. reflexivity.
  - intros H1 H2. destruct (leqb (lower s) (lit "overwrite")) eqn:E1; [apply leqb_eq in E1; contradiction|].
    destruct (leqb (lower s) (lit "add")) eqn:E2; [apply leqb_eq in E2; contradiction|]. reflexivity.
Qed.
Print Assumptions C10_mode_names.
Example C10_mode_example : lower (lit "Add") = lit "add" /\ lower (lit "OVERWRITE") = lit "overwrite" /\ lower (lit "append") <> lit "add".
Proof. split; [reflexivity|]. split; [reflexivity|discriminate]. Qed.
(** An empty list is rejected in any mode. *)
Theorem C10_nothing : forall c file u s fd, write_sets c file u [] s fd = (file, u, Some (PyException "Nothing to write")).
Proof. reflexivity. Qed.
Print Assumptions C10_nothing.

(* ------------------------------------------------------------------ *)
(** ** C50 *)

(** What the file holds in place of the entities: the full lines, then for the
    incomplete line the entities at positions 0, 4 and 8 (dataset_2429.py:137-140). *)
Definition kept_entities (es : list (Z * Z)) : list (Z * Z) :=
  firstn (4 * (length es / 4)) es ++ flat_map (fun i => match nth_error es (i * 4) with Some e => [e] | None => [] end) (seq 0 (length es mod 4)).
Definition writable (es : list (Z * Z)) : Prop := length es <> 2 /\ length es <> 3 /\ length es <> 7.
Definition wf2429' (g : group) (es : list (Z * Z)) : Prop :=
  wf_group g /\ fits 10 (Z.of_nat (length es)) /\ es <> [] /\ Forall (fun e => Forall (fits 9) (cells2 e) /\ snd e <> (-1)%Z) es.

Lemma writable_in : forall es, writable es <-> forall i, i < length es mod 4 -> i * 4 < length es.
Proof.
  intro es. unfold writable. assert (Hd := Nat.div_mod (length es) 4 ltac:(lia)). assert (Hm := Nat.mod_upper_bound (length es) 4 ltac:(lia)).
  set (n := length es) in *. set (q := n / 4) in *. set (r := n mod 4) in *. split.
  - intros (H2 & H3 & H7) i Hi. lia.
  - intro H. split; [|split]; intro E.
    + assert (r = 2) by (unfold r; rewrite E; reflexivity). specialize (H 1 ltac:(lia)). lia.
    + assert (r = 3) by (unfold r; rewrite E; reflexivity). specialize (H 2 ltac:(lia)). lia.
    + assert (r = 3) by (unfold r; rewrite E; reflexivity). specialize (H 2 ltac:(lia)). lia.
Qed.
Lemma row_entities : forall (es : list (Z * Z)) r, (forall i, i < r -> i * 4 < length es) -> forall k j, k + j = r ->
  length (flat_map (fun i => match nth_error es (i * 4) with Some e => [e] | None => [] end) (seq k j)) = j.
Proof.
  intros es r H k j. revert k. induction j as [|j IH]; intros k Hk; [reflexivity|]. cbn [seq flat_map]. rewrite app_length, IH by lia.
  specialize (H k ltac:(lia)). apply nth_error_Some in H. destruct (nth_error es (k * 4)); [reflexivity|congruence].
Qed.
Lemma kept_length : forall es, writable es -> length (kept_entities es) = length es.
Proof.
  intros es H. unfold kept_entities. rewrite app_length, firstn_length. rewrite (row_entities es (length es mod 4)); [|apply writable_in; assumption|reflexivity].
  assert (Hd := Nat.div_mod (length es) 4 ltac:(lia)). lia.
Qed.
Lemma kept_sub : forall (P : Z * Z -> Prop) es, Forall P es -> Forall P (kept_entities es).
Proof.
  intros P es H. rewrite Forall_forall in *. intros e He. unfold kept_entities in He. apply in_app_or in He as [He|He].
  - apply H. rewrite <- (firstn_skipn (4 * (length es / 4)) es). apply in_or_app. left. exact He.
  - apply in_flat_map in He as (i & _ & He). destruct (nth_error es (i * 4)) eqn:E; [|destruct He]. destruct He as [<-|[]]. apply H. eapply nth_error_In. exact E.
Qed.
Lemma kept_row : forall es, skipn (4 * (length es / 4)) (kept_entities es) =
  flat_map (fun i => match nth_error es (i * 4) with Some e => [e] | None => [] end) (seq 0 (length es mod 4)).
Proof.
  intro es. assert (Hd := Nat.div_mod (length es) 4 ltac:(lia)). unfold kept_entities. rewrite skipn_app. rewrite firstn_length.
  rewrite skipn_all2 by (rewrite firstn_length; lia). rewrite Nat.min_l by lia. rewrite Nat.sub_diag. reflexivity.
Qed.
Lemma kept_chunk : forall es i, i < length es / 4 -> chunk 4 (kept_entities es) i = chunk 4 es i.
Proof.
  intros es i Hi. assert (Hd := Nat.div_mod (length es) 4 ltac:(lia)). unfold chunk, kept_entities. rewrite skipn_app, firstn_app.
  rewrite firstn_length, Nat.min_l by lia.
  assert (E1 : skipn (4 * i) (firstn (4 * (length es / 4)) es) = firstn (4 * (length es / 4) - 4 * i) (skipn (4 * i) es)) by apply skipn_firstn_comm.
  rewrite E1. rewrite firstn_firstn. rewrite firstn_length, skipn_length. rewrite Nat.min_l by lia.
  replace (4 - Nat.min (4 * (length es / 4) - 4 * i) (length es - 4 * i)) with 0 by lia. rewrite firstn_O, app_nil_r. reflexivity.
Qed.
Lemma kept_same : forall es, writable es -> (kept_entities es = es <-> last_row_ok es).
Proof.
  intros es Hw. assert (Hd := Nat.div_mod (length es) 4 ltac:(lia)). assert (Hi := proj1 (writable_in es) Hw). split.
  - intros E i Hlt. rewrite <- E at 2. unfold kept_entities. rewrite nth_error_app2; rewrite firstn_length, Nat.min_l by lia; [|lia].
    replace (4 * (length es / 4) + i - 4 * (length es / 4)) with i by lia.
    assert (G : forall j k i, i < j -> (forall x, x < k + j -> x * 4 < length es) ->
      nth_error (flat_map (fun i => match nth_error es (i * 4) with Some e => [e] | None => [] end) (seq k j)) i = nth_error es ((k + i) * 4)).
    { induction j as [|j IH]; intros k i0 H0 Hx; [lia|]. cbn [seq flat_map]. assert (Hk := Hx k ltac:(lia)). apply nth_error_Some in Hk.
      destruct (nth_error es (k * 4)) as [e|] eqn:Ee; [|congruence]. destruct i0 as [|i0]; [rewrite Nat.add_0_r, Ee; reflexivity|]. cbn [app nth_error].
      rewrite IH; [f_equal; lia|lia|]. intros x Hx'. apply Hx. lia. }
    rewrite G; [reflexivity|exact Hlt|]. intros x Hx. apply Hi. lia.
  - intro H. unfold kept_entities. rewrite <- (firstn_skipn (4 * (length es / 4)) es) at 4. f_equal.
    assert (G : forall j k, k + j = length es mod 4 ->
      flat_map (fun i => match nth_error es (i * 4) with Some e => [e] | None => [] end) (seq k j) = skipn (4 * (length es / 4) + k) es).
    { induction j as [|j IH]; intros k Hk.
      - rewrite skipn_all2 by lia. reflexivity.
      - cbn [seq flat_map]. rewrite H by lia. assert (Hx : 4 * (length es / 4) + k < length es) by lia. apply nth_error_Some in Hx.
        destruct (nth_error es (4 * (length es / 4) + k)) as [e|] eqn:Ee; [|congruence]. cbn [app]. rewrite IH by lia.
        apply nth_error_split in Ee as (l1 & l2 & E1 & E2). replace (4 * (length es / 4) + S k) with (length l1 + 1) by lia. rewrite <- E2. clear - E1.
        subst es. rewrite <- skipn_skipn_add, !skipn_app, !skipn_all, Nat.sub_diag. reflexivity. }
    rewrite (G _ 0) by reflexivity. rewrite Nat.add_0_r. reflexivity.
Qed.

Lemma set2429_all : forall c m fd ho d g es, repr2429 d g es -> wf2429' g es -> writable es ->
  text_set c m fd ho d 2429 hdr2429 (group_lines cells2 4 g (kept_entities es)) (read2429 g (kept_entities es)).
Proof.
  intros c m fd ho d g es (Hty & Hdat & R1 & R2 & R3 & R4 & R5) (W1 & W2 & W3 & W4) Hw.
  assert (W5 := proj1 (writable_in es) Hw). assert (Kl := kept_length es Hw). assert (W4' := kept_sub _ es W4).
  set (ks := kept_entities es) in *. assert (Kn : ks <> []) by (destruct ks; [destruct es; [congruence|discriminate]|discriminate]).
  assert (W2' : fits 10 (Z.of_nat (length ks))) by (rewrite Kl; exact W2).
  assert (Hen : Forall (wf_ent cells2) ks) by (eapply Forall_impl; [|exact W4']; exact wf_ent2).
  assert (Hok : Forall okline (hdr2429 :: group_lines cells2 4 g ks)).
  { constructor; [apply hdr6_ok; [reflexivity|apply plain_ascii; reflexivity|discriminate]|]. apply group_lines_ok; [lia|assumption|assumption|assumption]. }
  constructor; [|assumption|reflexivity|].
  - rewrite (set_items_text c m fd d (VInt 2429) Hty Hdat). change (write_dispatch c m fd (VInt 2429) d) with (write2429 d). unfold write2429.
    cbn [wp_items]. lift R1; lift R3; lift R4; lift R5. set (d1 := opt_fields d _) in *.
    assert (Rs : sets_of d1 (p_sets g)).
    { unfold sets_or in R2. unfold sets_of. unfold group_keys in *.
      repeat match goal with H : Forall2 _ (_ :: _) _ |- _ => inversion H; subst; clear H end.
      match goal with H : Forall2 _ [] _ |- _ => inversion H; subst; clear H end.
      repeat (constructor; [unfold d1; eapply has_opt_or; [eassumption|reflexivity|reflexivity]|]). constructor. }
    clearbody d1.
    assert (Hlen : (do v <- ix d1 "entity_type_code" ;; py_len v) = Ok (length es)).
    { rewrite <- (map_length fst es). exact (has_len _ _ _ _ _ R4). }
    rewrite Hlen. assert (Kr := kept_row es). assert (Kc := kept_chunk es). fold ks in Kr, Kc. set (n := length es) in *.
    assert (Gi : forall i e, nth_error es i = Some e -> gi (at_ (ix d1 "entity_type_code") (Z.of_nat i)) (fst e) /\ gi (at_ (ix d1 "entity_tag") (Z.of_nat i)) (snd e)).
    { intros i e Hi. split; [apply (has_gi_at d1 "entity_type_code" _ _ _ R4)|apply (has_gi_at d1 "entity_tag" _ _ _ R5)]; apply map_nth_error; assumption. }
    assert (Hd := Nat.div_mod n 4 ltac:(lia)). assert (Hm := Nat.mod_upper_bound n 4 ltac:(lia)).
    rewrite unlines_cons'. eapply writes_eq.
    { apply writes_consr; [reflexivity|].
      apply (head_writes (ix d1) d1 g n); [reflexivity|assumption|assumption|exact Hlen|assumption|].
      apply writes_app with (s := unlines (map (fun i => zline (flat_map cells2 (chunk 4 ks i))) (seq 0 (n / 4)))).
      - apply writes_seq. intros i Hi. apply in_seq in Hi. rewrite Kc by lia. assert (Hl := chunk_length _ 4 es i). fold n in Hl.
        destruct (chunk 4 es i) as [|e1 [|e2 [|e3 [|e4 [|? ?]]]]] eqn:Ec; cbn [length] in Hl; try lia.
        assert (N1 : nth_error es (i * 4) = Some e1) by (replace (i * 4) with (4 * i + 0) by lia; apply nth_chunk; rewrite Ec; reflexivity).
        assert (N2 : nth_error es (i * 4 + 1) = Some e2) by (replace (i * 4) with (4 * i) by lia; apply nth_chunk; rewrite Ec; reflexivity).
        assert (N3 : nth_error es (i * 4 + 2) = Some e3) by (replace (i * 4) with (4 * i) by lia; apply nth_chunk; rewrite Ec; reflexivity).
        assert (N4 : nth_error es (i * 4 + 3) = Some e4) by (replace (i * 4) with (4 * i) by lia; apply nth_chunk; rewrite Ec; reflexivity).
        destruct (Gi _ _ N1), (Gi _ _ N2), (Gi _ _ N3), (Gi _ _ N4).
        rewrite <- (app_nil_r (_ ++ [LF])). apply (writes_line _ _ (map (CI 10) (flat_map cells2 [e1; e2; e3; e4]))); [reflexivity| |constructor].
        cbn [map flat_map cells2 cells_args app]. auto 20.
      - apply writes_app with (s := zline (flat_map cells2 (skipn (4 * (n / 4)) ks))).
        + rewrite Kr. assert (G : forall r k, k + r = n mod 4 ->
            writes (map (fun i => txt "%10i%10i" [at_ (ix d1 "entity_type_code") (Z.of_nat (i * 4)); at_ (ix d1 "entity_tag") (Z.of_nat (i * 4))]) (seq k r))
              (zline (flat_map cells2 (flat_map (fun i => match nth_error es (i * 4) with Some e => [e] | None => [] end) (seq k r))))).
          { induction r as [|r IH]; intros k Hk; [constructor|]. cbn [seq map flat_map].
            assert (Hx := W5 k ltac:(lia)). apply nth_error_Some in Hx. destruct (nth_error es (k * 4)) as [e|] eqn:Ne; [|congruence].
            destruct (Gi _ _ Ne) as [G1 G2]. cbn [app flat_map]. unfold zline. rewrite map_app, cells_text_app. unfold txt at 1.
            rewrite (pct_cells _ _ (map (CI 10) (cells2 e))); [|reflexivity|cbn [cells2 map cells_args]; auto].
            constructor. apply IH. lia. }
          apply (G (n mod 4) 0). reflexivity.
        + apply writes_app; [|exact end_writes].
          instantiate (1 := if Nat.eqb (n mod 4) 0 then [] else [LF]). destruct (Nat.eqb (n mod 4) 0); [constructor|].
          apply writes_one. reflexivity. }
    unfold group_lines. rewrite Kl.
    unfold ent_rows, chunks. rewrite Kl. rewrite (unlines_head _ _ (map _ (map _ _))). rewrite mod_rows. rewrite seq_app, !map_app, unlines_app, (map_map _ _ (seq 0 _)).
    cbn [plus].
    assert (Et : unlines (map (fun r => zline (flat_map cells2 r)) (map (chunk 4 ks) (seq (n / 4) (if Nat.eqb (n mod 4) 0 then 0 else 1)))) =
      zline (flat_map cells2 (skipn (4 * (n / 4)) ks)) ++ (if Nat.eqb (n mod 4) 0 then [] else [LF])).
    { destruct (Nat.eqb_spec (n mod 4) 0) as [E0|E0].
      - rewrite skipn_all2 by lia. reflexivity.
      - cbn [seq map]. rewrite unlines_one. unfold chunk. rewrite firstn_all2 by (rewrite skipn_length; lia). reflexivity. }
    rewrite Et. rewrite <- !app_assoc. reflexivity.
  - intros block _ Hb. unfold extract_set. rewrite Hb. cbn [Z.eqb Pos.eqb]. unfold extract2429, extract2429_fuel.
    rewrite split_text by assumption. cbv beta iota zeta.
    destruct (group_at _ cells2 4 g ks [] top2429 [] ltac:(lia) (or_introl eq_refl) W1 W2' Hen) as ((g1 & G1 & G2) & G3 & G4 & G5).
    rewrite (map_ext (endl []) (fun l => l)) in * by (intro; apply app_nil_r). rewrite map_id, app_nil_r in *.
    match goal with |- context [loop2429 ?f ?x _ _] => change (loop2429 f x 2 []) with (loop2429 f (top2429 ++ group_lines cells2 4 g ks) 2 []);
      assert (Hf : exists f2, f = S (S f2)) by (exists (f - 2); cbn [length]; lia) end.
    destruct Hf as [f2 ->]. set (lines := top2429 ++ group_lines cells2 4 g ks) in *. cbn [loop2429].
    change (Z.of_nat (length top2429)) with 2%Z in *.
    set (nr := length (ent_rows cells2 4 ks)).
    match goal with |- context [@length ?T lines] => assert (Hll : @length T lines = 4 + nr) by reflexivity end.
    assert (Hrow : 0 < nr).
    { unfold nr, ent_rows. rewrite map_length, chunks_length. assert (Hu := rows_up_le 4 (length ks) ltac:(lia)). destruct ks; [congruence|]. cbn [length] in *. lia. }
    rewrite Hll. rewrite (proj2 (Z.ltb_lt _ _)) by lia.
    destruct (py_nth lines 2) as [l0|]; [|discriminate]. cbn [rbind] in G1 |- *. rewrite G1. cbn [rbind].
    destruct (py_nth lines (2 + 1)) as [l1|]; [|discriminate]. cbn [rbind] in G3 |- *. rewrite G3. cbn [rbind].
    rewrite G2. rewrite group_out_count by apply W1. cbn [rbind]. change (Z.of_nat 4) with 4%Z in *. rewrite G4. cbn [rbind]. rewrite G5.
    assert (E1 : every 0 2 (flat_map cells2 ks) = map fst ks) by (apply every_table1; [lia|intro e; split; reflexivity]).
    assert (E2 : every 1 2 (flat_map cells2 ks) = map snd ks) by (apply every_table1; [lia|intro e; split; reflexivity]).
    rewrite E1, E2. change (length (group_lines cells2 4 g ks)) with (2 + nr). cbn [length].
    rewrite (proj2 (Z.ltb_ge _ _)) by lia. cbn [app rbind try_any].
    unfold read2429, group_out. destruct W1 as (_ & _ & W1 & _).
    destruct (p_sets g) as [|a [|b [|c0 [|d0 [|e [|f [|? ?]]]]]]]; try discriminate. reflexivity.
Qed.

(** Reading gives these entities, whatever the number of them. *)
Theorem C50_exact : forall c m fd ho d g es, repr2429 d g es -> wf2429' g es -> writable es ->
  round_trips c m fd ho d (read2429 g (kept_entities es)).
Proof. intros. eapply text_set_round, set2429_all; eassumption. Qed.
Print Assumptions C50_exact.
(** They are those written exactly if the incomplete last line has the right ones. *)
Theorem C50_iff : forall c m fd ho d g es, repr2429 d g es -> wf2429' g es -> writable es ->
  (round_trips c m fd ho d (read2429 g es) <-> last_row_ok es).
Proof.
  intros c m fd ho d g es R W Hw. assert (H := C50_exact c m fd ho d g es R W Hw). rewrite <- (kept_same es Hw). split.
  - intro H2. destruct (H (Some []) uff0 ltac:(destruct m; exact appendable_nil)) as (n & u0 & u' & A1 & A2 & A3 & A4 & A5).
    destruct (H2 (Some []) uff0 ltac:(destruct m; exact appendable_nil)) as (n2 & u02 & u2 & B1 & B2 & B3 & B4 & B5).
    assert (E0 : u0 = u02) by congruence. assert (En : kept m (Some []) ++ n = kept m (Some []) ++ n2) by congruence. assert (Eu : u' = u2) by congruence.
    subst u02 u2. rewrite En in A4. rewrite A4 in B4. unfold read2429 in B4.
    assert (L : forall a b : list Z, vints a = vints b -> a = b).
    { intros a b E. unfold vints in E. assert (E2 : map VInt a = map VInt b) by congruence. clear E. revert b E2.
      induction a as [|x a IH]; intros [|y b] E2; try discriminate; [reflexivity|]. cbn in E2. injection E2 as -> E2. f_equal. auto. }
    rewrite (kept_length es Hw) in B4.
    assert (F : group_out g (Z.of_nat (length es)) ++ [(KS "entity_type_code", vints (map fst (kept_entities es))); (KS "entity_tag", vints (map snd (kept_entities es)))] =
      group_out g (Z.of_nat (length es)) ++ [(KS "entity_type_code", vints (map fst es)); (KS "entity_tag", vints (map snd es))]) by congruence.
    apply app_inv_head in F. assert (F1 : map fst (kept_entities es) = map fst es) by (apply L; congruence).
    assert (F2 : map snd (kept_entities es) = map snd es) by (apply L; congruence).
    clear - F1 F2. revert F1 F2. generalize (kept_entities es). revert es.
    induction es as [|[a b] es IH]; intros [|[a' b'] l] F1 F2; try discriminate; [reflexivity|]. cbn in F1, F2. injection F1 as -> F1. injection F2 as -> F2. f_equal. auto.
  - intro E. rewrite E in H. exact H.
Qed.
Print Assumptions C50_iff.
(** For two, three and seven entities the writer always fails: the incomplete
    line asks for entities that do not exist. *)
Lemma run_stops : forall pre s, writes pre s -> forall st post, exists b e,
  run_items st (pre ++ WTxt (Err IndexError) :: post) = (b, Some e) /\ wrap_plain "2429" e = PyException "Error writing data-set #2429".
Proof.
  induction 1 as [|s l t _ IH]; intros st post.
  - exists st, IndexError. split; reflexivity.
  - cbn [app run_items]. unfold utf8_encode. destruct (utf8_enc s) as [b|]; cbn [of_option]; [apply IH|]. exists st, UnicodeError. split; reflexivity.
Qed.
Theorem C50_fails_refuted : forall c m fd d g es file u, repr2429 d g es -> ~ writable es ->
  exists f u', write_sets c file u [d] (mode_name m) fd = (f, u', Some (PyException "Error writing data-set #2429")).
Proof.
  intros c m fd d g es file u (Hty & Hdat & R1 & R2 & R3 & R4 & R5) Hw.
  unfold write_sets. rewrite parse_mode_name. cbn [write_list].
  match goal with |- context [write_set ?a ?b ?e ?f ?g ?h] => set (w := write_set a b e f g h);
    assert (Hx : w_exc w = Some (PyException "Error writing data-set #2429")) end.
  2:{ rewrite Hx. eexists _, _. reflexivity. }
  unfold w, write_set. rewrite Hty, Hdat. cbv zeta. change (write_dispatch c m fd (VInt 2429) d) with (write2429 d).
  change (wp_wrap (write2429 d)) with (wrap_plain "2429").
  assert (Hi : exists pre s post, wp_items (write2429 d) = pre ++ WTxt (Err IndexError) :: post /\ writes pre s).
  { unfold write2429. cbn [wp_items]. lift R1; lift R3; lift R4; lift R5. set (d1 := opt_fields d _) in *.
    assert (Rs : sets_of d1 (p_sets g)).
    { unfold sets_or in R2. unfold sets_of. unfold group_keys in *.
      repeat match goal with H : Forall2 _ (_ :: _) _ |- _ => inversion H; subst; clear H end.
      match goal with H : Forall2 _ [] _ |- _ => inversion H; subst; clear H end.
      repeat (constructor; [unfold d1; eapply has_opt_or; [eassumption|reflexivity|reflexivity]|]). constructor. }
    clearbody d1.
    assert (Hlen : (do v <- ix d1 "entity_type_code" ;; py_len v) = Ok (length es)).
    { rewrite <- (map_length fst es). exact (has_len _ _ _ _ _ R4). }
    rewrite Hlen.
    assert (Gi : forall i e, nth_error es i = Some e -> gi (at_ (ix d1 "entity_type_code") (Z.of_nat i)) (fst e) /\ gi (at_ (ix d1 "entity_tag") (Z.of_nat i)) (snd e)).
    { intros i e Hi. split; [apply (has_gi_at d1 "entity_type_code" _ _ _ R4)|apply (has_gi_at d1 "entity_tag" _ _ _ R5)]; apply map_nth_error; assumption. }
    assert (Ge : forall i a, length es <= i -> txt "%10i%10i" [at_ (ix d1 "entity_type_code") (Z.of_nat i); a] = WTxt (Err IndexError)).
    { intros i a Hi. destruct R4 as (v & Hv & vs & Hs & HF). apply Forall2_len in HF. rewrite map_length in HF.
      unfold txt, pct, at_, ix. rewrite Hv. cbn [of_option rbind]. rewrite Hs. cbn [rbind]. unfold py_nth.
      destruct (Z.ltb_spec (Z.of_nat i) 0); [lia|]. destruct (Z.ltb_spec (Z.of_nat i) 0); [lia|]. cbn [orb]. rewrite (proj2 (Z.leb_le _ _)) by lia. reflexivity. }
    assert (Hb : length es = 2 \/ length es = 3 \/ length es = 7) by (unfold writable in Hw; lia).
    assert (Tl : forall i e, nth_error es i = Some e -> exists s, txt "%10i%10i" [at_ (ix d1 "entity_type_code") (Z.of_nat i); at_ (ix d1 "entity_tag") (Z.of_nat i)] = WTxt (Ok s)).
    { intros i e Hi. destruct (Gi _ _ Hi). unfold txt. rewrite (pct_cells _ _ (map (CI 10) (cells2 e))); [eauto|reflexivity|cbn [cells2 map cells_args]; auto]. }
    assert (Rw : forall rest s, writes rest s -> exists s', writes (txt "%6i\n%6i\n" [Tools.I (-1); Tools.I 2429]
       :: txt "%10i%10i%10i%10i%10i%10i%10i%10i\n" (ix d1 "group_number" :: map (ix d1) group_keys ++ [len_arg (ix d1 "entity_type_code")])
       :: txt "%-40s\n" [ix d1 "group_name"] :: rest) s').
    { intros rest s Hr. eexists. apply writes_consr; [reflexivity|].
      apply (head_writes (ix d1) d1 g (length es)); [reflexivity|assumption|assumption|exact Hlen|assumption|exact Hr]. }
    destruct Hb as [Hb|[Hb|Hb]]; rewrite Hb.
    - change (2 / 4) with 0. change (2 mod 4) with 2. cbn [seq map app Nat.mul Nat.add Nat.eqb].
      destruct es as [|e1 es]; [discriminate|]. destruct (Tl 0 e1 eq_refl) as [s1 E1]. rewrite E1. rewrite (Ge 4) by (rewrite Hb; lia).
      destruct (Rw [WTxt (Ok s1)] _ (writes_one _ _ eq_refl)) as [s' Hs]. eexists _, _, _. split; [|exact Hs]. reflexivity.
    - change (3 / 4) with 0. change (3 mod 4) with 3. cbn [seq map app Nat.mul Nat.add Nat.eqb].
      destruct es as [|e1 es]; [discriminate|]. destruct (Tl 0 e1 eq_refl) as [s1 E1]. rewrite E1. rewrite (Ge 4) by (rewrite Hb; lia).
      destruct (Rw [WTxt (Ok s1)] _ (writes_one _ _ eq_refl)) as [s' Hs]. eexists _, _, _. split; [|exact Hs]. reflexivity.
    - change (7 / 4) with 1. change (7 mod 4) with 3. cbn [seq map app Nat.mul Nat.add Nat.eqb].
      destruct es as [|e1 [|e2 [|e3 [|e4 [|e5 es]]]]]; try discriminate. destruct (Tl 0 e1 eq_refl) as [s1 E1]. destruct (Tl 4 e5 eq_refl) as [s5 E5]. rewrite E1, E5. rewrite (Ge 8) by (rewrite Hb; lia).
      destruct (Gi 0 e1 eq_refl), (Gi 1 e2 eq_refl), (Gi 2 e3 eq_refl), (Gi 3 e4 eq_refl).
      match goal with |- exists pre s post, _ :: _ :: _ :: ?r :: ?q1 :: ?q2 :: _ = _ /\ _ => assert (Wr : exists s, writes [r; q1; q2] s) end.
      { eexists. apply (writes_line _ _ (map (CI 10) (flat_map cells2 [e1; e2; e3; e4]))); [reflexivity| |apply writes_cons, (writes_one _ _ eq_refl)].
        cbn [map flat_map cells2 cells_args app]. auto 20. }
      destruct Wr as [s0 Wr]. destruct (Rw _ _ Wr) as [s' Hs]. eexists _, _, _. split; [|exact Hs]. reflexivity. }
  destruct Hi as (pre & s & post & Ei & Hpre). rewrite Ei.
  match goal with |- context [run_items ?st _] => destruct (run_stops _ _ Hpre st post) as (b & e & Er & Ew) end. rewrite Er. cbn [w_exc]. rewrite Ew. reflexivity.
Qed.
Print Assumptions C50_fails_refuted.
(** Without entities the group is written and read as no group at all. *)
Theorem C50_empty_refuted : forall c m fd ho d g, repr2429 d g [] -> wf_group g ->
  round_trips c m fd ho d [(KS "type", VInt 2429); (KS "groups", VList [])].
Proof.
  intros c m fd ho d g (Hty & Hdat & R1 & R2 & R3 & R4 & R5) W1.
  assert (Hok : Forall okline (hdr2429 :: group_lines cells2 4 g [])).
  { constructor; [apply hdr6_ok; [reflexivity|apply plain_ascii; reflexivity|discriminate]|]. apply group_lines_ok; [lia|assumption|unfold fits; cbn; lia|constructor]. }
  apply (text_set_round _ _ _ _ _ 2429 hdr2429 (group_lines cells2 4 g [])). constructor; [|assumption|reflexivity|].
  - rewrite (set_items_text c m fd d (VInt 2429) Hty Hdat). change (write_dispatch c m fd (VInt 2429) d) with (write2429 d). unfold write2429.
    cbn [wp_items]. lift R1; lift R3; lift R4; lift R5. set (d1 := opt_fields d _) in *.
    assert (Rs : sets_of d1 (p_sets g)).
    { unfold sets_or in R2. unfold sets_of. unfold group_keys in *.
      repeat match goal with H : Forall2 _ (_ :: _) _ |- _ => inversion H; subst; clear H end.
      match goal with H : Forall2 _ [] _ |- _ => inversion H; subst; clear H end.
      repeat (constructor; [unfold d1; eapply has_opt_or; [eassumption|reflexivity|reflexivity]|]). constructor. }
    clearbody d1.
    assert (Hlen : (do v <- ix d1 "entity_type_code" ;; py_len v) = Ok 0) by exact (has_len _ _ _ _ _ R4).
    rewrite Hlen. change (0 / 4) with 0. change (0 mod 4) with 0. cbn [seq map app Nat.eqb].
    rewrite unlines_cons'. eapply writes_eq.
    { apply writes_consr; [reflexivity|]. apply (head_writes (ix d1) d1 g 0); [reflexivity|assumption|assumption|exact Hlen|assumption|]. exact end_writes. }
    unfold group_lines, ent_rows, chunks. cbn [map length]. rewrite <- !app_assoc. reflexivity.
  - intros block _ Hb. unfold extract_set. rewrite Hb. cbn [Z.eqb Pos.eqb]. unfold extract2429, extract2429_fuel.
    rewrite split_text by assumption. cbv beta iota zeta.
    match goal with |- context [loop2429 ?f ?x _ _] => change (loop2429 f x 2 []) with (loop2429 f (top2429 ++ group_lines cells2 4 g []) 2 []);
      assert (Hf : exists f2, f = S f2) by (exists (f - 1); cbn [length]; lia) end.
    destruct Hf as [f2 ->]. set (lines := top2429 ++ group_lines cells2 4 g []) in *. cbn [loop2429].
    match goal with |- context [@length ?T lines] => assert (Hll : @length T lines = 4) by reflexivity end.
    rewrite Hll. reflexivity.
Qed.
Print Assumptions C50_empty_refuted.
Example C50_exact_example : let es := [(8, 1); (7, -1234); (8, -3); (8, 999999999); (8, 2); (7, 6)]%Z in
  repr2429 (d2429 es) g2429 es /\ wf2429' g2429 es /\ writable es /\ kept_entities es = [(8, 1); (7, -1234); (8, -3); (8, 999999999); (8, 1); (8, 2)]%Z.
Proof.
  cbv zeta. split.
  - unfold repr2429. do 3 (split; [wit1|]). split; [unfold sets_or, group_keys; cbn [p_sets g2429]; repeat (constructor; [wit1|]); constructor|]. wit.
  - split; [|split; [|reflexivity]].
    + unfold wf2429', wf_group. split; [cbn [p_num p_sets p_name g2429]; wit|]. split; [wit|]. split; [discriminate|]. unfold cells2; cbn [fst snd]; wit.
    + repeat split; discriminate.
Qed.
Example C50_fails_example : let es := [(8, 1); (7, 2)]%Z in repr2429 (d2429 es) g2429 es /\ ~ writable es.
Proof.
  cbv zeta. split; [|intros (H & _); apply H; reflexivity].
  unfold repr2429. do 3 (split; [wit1|]). split; [unfold sets_or, group_keys; cbn [p_sets g2429]; repeat (constructor; [wit1|]); constructor|]. wit.
Qed.
Example C50_empty_example : repr2429 (d2429 []) g2429 [] /\ wf_group g2429.
Proof.
  split; [|unfold wf_group; cbn [p_num p_sets p_name g2429]; wit].
  unfold repr2429. do 3 (split; [wit1|]). split; [unfold sets_or, group_keys; cbn [p_sets g2429]; repeat (constructor; [wit1|]); constructor|]. wit.
Qed.
(** The hypotheses of C07 and C09 are met by a set that is written, one that is
    rejected after two lines, and one of unsupported type. *)
Example C07_exact_example : exists f u, write_sets noclock (Some ex_old) (view ex_old) [d2429 [(8, 1)]%Z] (lit "overwrite") true = (Some f, u, None) /\
  n_sets (view f) = 1 /\ set_types u = [2429%Z].
Proof. eexists _, _. split; [vm_compute; reflexivity|]. split; vm_compute; reflexivity. Qed.
Example C07_stale_example : ~ In 99%Z supported /\ n_sets (view ex_old) = 1.
Proof. split; [simpl; lia|vm_compute; reflexivity]. Qed.
Example C09_example : exists f u e, write_sets noclock (Some ex_old) (view ex_old) [ex_bad15] (lit "overwrite") true = (Some f, u, Some e) /\ f = L ["    -1"; "    15"].
Proof. eexists _, _, _. split; vm_compute; reflexivity. Qed.
Example C08_example : exists u, uff_new None = Ok u /\ n_sets (view ex_old) = 1.
Proof. eexists. split; [reflexivity|vm_compute; reflexivity]. Qed.
