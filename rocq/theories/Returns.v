(** A set that is written as one block: what reading the block gives, whether or
    not it is a dictionary. *)
From Coq Require Import String List NArith ZArith Bool Lia.
Import ListNotations.
From Verif Require Import PyBase PyNum PyVal Utf8 Tools DsNodes DsHeaders Uff Facts Scan Container Append ContainerThms Utf8Facts DictFacts IntFacts Lines Stored Cells Rows
  PropNumeral.
From Coq Require Import Lia.
Open Scope string_scope.
Open Scope list_scope.
Open Scope nat_scope.

(** The dictionary [d] is written to every appendable file, and reading the new
    set gives [r]; an error shows as the error of [read_sets]. *)
Definition returns (c : clock) (m : wmode) (fd ho : bool) (d : dict) (r : result dict) : Prop :=
  forall file u, appendable (kept m file) ->
  exists new u0 u', uff_new (Some (kept m file)) = Ok u0 /\
    write_sets c file u [d] (mode_name m) fd = (Some (kept m file ++ new), u', None) /\
    get_n_sets (Some (kept m file ++ new)) u' = Ok (u', S (n_sets u0)) /\
    read_sets (Some (kept m file ++ new)) u' (SelOne (Z.of_nat (n_sets u0))) ho =
      (do out <- try_any r (PyException "Error when reading data-set(s).") ;; Ok (u', One out)).

Lemma stored_returns : forall c m fd ho d b, stored c m fd d b -> returns c m fd ho d (extract_set (type_in (b_body b)) (b_open b ++ b_body b) ho).
Proof.
  intros c m fd ho d b Hs file u Ha.
  destruct (stored_write c m fd d b file u Hs Ha) as [d' Hw].
  exists (block_bytes b), (view (kept m file)), (view (kept m file ++ block_bytes b)).
  split; [apply uff_new_view|]. destruct Hs as [Hf _].
  split. { unfold write_sets. rewrite parse_mode_name. cbn [write_list]. rewrite Hw. reflexivity. }
  split. { unfold get_n_sets. rewrite sync_view. cbn [rbind]. unfold view. cbn [n_sets].
           rewrite extents_block by assumption. rewrite app_length. cbn [length]. rewrite Nat.add_1_r. reflexivity. }
  rewrite c06. unfold rmap, wanted. cbn [map rseq]. change (n_sets (view (kept m file))) with (length (extents (kept m file))).
  rewrite set_at_new by assumption. destruct (extract_set _ _ _) as [out|[]]; reflexivity.
Qed.
Lemma text_returns : forall c m fd ho d ty l0 ls,
  writes (set_items c m fd d) (TLINE ++ unlines (l0 :: ls) ++ TLINE) -> Forall okline (l0 :: ls) -> type_line ty l0 = true ->
  exists block, utf8_decode block = unlines (TAG :: l0 :: ls) /\ returns c m fd ho d (extract_set ty block ho).
Proof.
  intros c m fd ho d ty l0 ls Hw Hok Ht. destruct (stored_text c m fd d ty l0 ls Hw Hok Ht) as (b & Hs & Hty & _ & _ & Hd).
  exists (b_open b ++ b_body b). split; [assumption|]. rewrite <- Hty. apply stored_returns. assumption.
Qed.

(** Entries of a header record are the fields it names. *)
Lemma put_opt_other : forall d k v n, n <> k -> dget (put_opt d k v) (KS n) = dget d (KS n).
Proof.
  intros d k [v|] n H; cbn [put_opt]; [|reflexivity]. rewrite dget_dput. cbn [key_eqb].
  destruct (String.eqb_spec n k); [contradiction|reflexivity].
Qed.
Lemma mandatory_other : forall l d out n, mandatory d l = Ok out -> ~ In n (map fst l) -> dget out (KS n) = dget d (KS n).
Proof.
  induction l as [|[k [t s]] l IH]; intros d out n H Hn; cbn [mandatory] in H; [injection H as <-; reflexivity|].
  destruct (field_val t s) as [v|e]; [|discriminate]. cbn [rbind] in H. cbn [map fst In] in Hn.
  rewrite (IH _ _ _ H) by tauto. apply put_opt_other. intro E. apply Hn. left. congruence.
Qed.
Lemma optional_other : forall l d out n, optional d l = Ok out -> ~ In n (map fst l) -> dget out (KS n) = dget d (KS n).
Proof.
  induction l as [|[k [t s]] l IH]; intros d out n H Hn; cbn [optional] in H; [injection H as <-; reflexivity|].
  cbn [map fst In] in Hn. assert (E : n <> k) by (intro; subst; apply Hn; auto).
  destruct (field_val t s) as [v|[]]; try discriminate; rewrite (IH _ _ _ H) by tauto.
  - apply put_opt_other. assumption.
  - apply (put_opt_other _ _ (Some _)). assumption.
Qed.
Lemma combine_names : forall A (l : list string) (m : list A) n, In n (map fst (combine l m)) -> In n l.
Proof.
  induction l as [|a l IH]; intros [|b m] n H; cbn in *; try contradiction. destruct H as [->|H]; [auto|right; eapply IH; eassumption].
Qed.
Lemma header_line_other : forall line mn ws ts names e n, parse_header_line line mn ws ts names = Ok e -> ~ In n names -> dget e (KS n) = None.
Proof.
  intros line mn ws ts names e n H Hn. unfold parse_header_line in H. cbv zeta in H.
  destruct (_ || _); [discriminate|]. destruct (Nat.ltb _ _); [discriminate|].
  set (all := combine names _) in *. assert (Ha : ~ In n (map fst all)) by (intro Hi; apply Hn; eapply combine_names; exact Hi).
  destruct (mandatory [] (firstn mn all)) as [d|x] eqn:E; [|discriminate]. cbn [rbind] in H.
  rewrite <- (firstn_skipn mn all), map_app in Ha. rewrite (optional_other _ _ _ _ H) by (intro; apply Ha, in_or_app; auto).
  rewrite (mandatory_other _ _ _ _ E) by (intro; apply Ha, in_or_app; auto). reflexivity.
Qed.
Lemma dput_keys : forall d k v x, In x (map fst (dput d k v)) -> x = k \/ In x (map fst d).
Proof.
  induction d as [|[k' v'] d IH]; intros k v x H; cbn [dput] in H; [destruct H as [<-|[]]; auto|].
  destruct (key_eqb k k'); cbn [map fst In] in *; [tauto|]. destruct H as [->|H]; [auto|]. apply IH in H. tauto.
Qed.
Lemma dget_In : forall d k, In k (map fst d) -> dget d k <> None.
Proof.
  induction d as [|[k' v'] d IH]; intros k H; [contradiction|]. cbn [dget map fst In] in *.
  destruct (key_eqb k k') eqn:E; [discriminate|]. destruct H as [->|H]; [|auto]. destruct k; cbn [key_eqb] in E; [rewrite String.eqb_refl in E|rewrite Z.eqb_refl in E]; discriminate.
Qed.
Lemma dupdate_other : forall e d n, dget e n = None -> dget (dupdate d e) n = dget d n.
Proof.
  unfold dupdate. induction e as [|[k v] e IH]; intros d n H; [reflexivity|]. cbn [fold_left fst snd dget] in *.
  destruct (key_eqb n k) eqn:E; [discriminate|]. rewrite IH by assumption. rewrite dget_dput. rewrite E. reflexivity.
Qed.
Lemma header_recs_other : forall l lines d out n, header_recs lines d l = Ok out -> Forall (fun h => ~ In n (h_names h)) l -> dget out (KS n) = dget d (KS n).
Proof.
  induction l as [|h l IH]; intros lines d out n H Hn; cbn [header_recs] in H; [injection H as <-; reflexivity|].
  inversion Hn as [|? ? Hh Hl]; subst. destruct (ln lines (h_line h)) as [line|x]; [|discriminate]. cbn [rbind] in H.
  destruct (parse_header_line _ _ _ _ _) as [e|x] eqn:E; [|discriminate]. cbn [rbind] in H.
  rewrite (IH _ _ _ _ H Hl). apply dupdate_other. eapply header_line_other; eassumption.
Qed.

(** A number followed by the beginning of another one is not that number. *)
Lemma numch_not : forall c x, numch c = true -> numch x = false -> (c =? x)%N = false.
Proof. intros c x Hc Hx. destruct (N.eqb_spec c x) as [->|]; [congruence|reflexivity]. Qed.
Lemma int_core_glued : forall a t, t <> [] -> forallb numch t = true -> int_core (dec_Z a ++ t) = Some a ->
  a = 0%Z /\ forallb is_digit t = true /\ digits_val t = 0%Z.
Proof.
  intros a t Hn Ht H. unfold int_core in H.
  rewrite rm_underscore_id in H.
  2:{ apply forallb_impl with (f := numch); [intros x Hx; rewrite (numch_not x 95) by (assumption || reflexivity); reflexivity|].
      rewrite forallb_app, dec_Z_numch. exact Ht. }
  assert (K : forall n, (0 <= n)%Z -> forall neg, (let (ds, rest) := span is_digit (dec_nat n ++ t) in
      match ds, rest with _ :: _, [] => Some (if neg : bool then - digits_val ds else digits_val ds)%Z | _, _ => None end) = Some (if neg then - n else n)%Z ->
      n = 0%Z /\ forallb is_digit t = true /\ digits_val t = 0%Z).
  { intros n Hp neg E. destruct (span is_digit (dec_nat n ++ t)) as [ds rest] eqn:Es. apply span_spec in Es as (Es & Hd & _).
    destruct ds as [|x ds]; [discriminate|]. destruct rest; [|discriminate]. rewrite app_nil_r in Es. rewrite <- Es in E, Hd.
    rewrite forallb_app in Hd. apply andb_true_iff in Hd as [_ Hd].
    rewrite digits_val_app2, dec_nat_val in E by assumption. assert (Hb := digits_val_bound t Hd).
    assert (Hl : (10 <= 10 ^ Z.of_nat (length t))%Z).
    { change 10%Z with (10 ^ 1)%Z at 1. apply Z.pow_le_mono_r; [lia|]. destruct t; [congruence|cbn [length]; lia]. }
    assert (Ev : (n * 10 ^ Z.of_nat (length t) + digits_val t = n)%Z) by (destruct neg; injection E as E; lia).
    assert (n = 0)%Z by nia. subst n. repeat split; [assumption|lia]. }
  assert (Hs : forall n u, (0 <= n)%Z -> read_sign (dec_nat n ++ u) = (false, dec_nat n ++ u)).
  { intros n u Hp. assert (Hd := dec_nat_digits n Hp). destruct (dec_nat n) as [|x r] eqn:E; [exfalso; apply (dec_nat_nonnil n Hp E)|].
    cbn [forallb] in Hd. apply andb_true_iff in Hd as [Hd _]. cbn [app read_sign]. rewrite (is_digit_not x 45), (is_digit_not x 43) by (assumption || reflexivity). reflexivity. }
  unfold dec_Z in H. destruct (a <? 0)%Z eqn:Ea.
  - apply Z.ltb_lt in Ea. exfalso.
    destruct (K (- a)%Z ltac:(lia) true); [|lia]. rewrite Z.opp_involutive. exact H.
  - apply Z.ltb_ge in Ea. rewrite Hs in H by assumption. apply (K a Ea false). exact H.
Qed.
Lemma int_core_blank : forall s t z, int_core (s ++ blank :: t) <> Some z.
Proof.
  intros s t z H. apply int_core_iff in H as (u & Hu & sg & neg & ds & -> & Hsg & Hds & _).
  assert (Hc : Forall (fun c => is_ws c = false) (s ++ blank :: t)).
  { eapply ungrouped_chars; [exact Hu|reflexivity|]. apply Forall_app. split; [eapply sign_nonws; eassumption|apply digits_nonws; assumption]. }
  rewrite Forall_forall in Hc. assert (Hb : In blank (s ++ blank :: t)) by (apply in_or_app; right; left; reflexivity). specialize (Hc blank Hb). discriminate.
Qed.

(** The field that begins with a number and holds the beginning of another. *)
Lemma digits_numch : forall s, forallb is_digit s = true -> forallb numch s = true.
Proof. intros s H. eapply forallb_impl; [|exact H]. intros c Hc. unfold numch. rewrite Hc. reflexivity. Qed.
Lemma strip_by_tight : forall f x s y, f x = false -> f y = false -> strip_by f (x :: s ++ [y]) = x :: s ++ [y].
Proof.
  intros f x s y Hx Hy. unfold strip_by, lstrip_by. cbn [dropwhile]. rewrite Hx. apply rstrip_by_id.
  change (x :: s ++ [y]) with ((x :: s) ++ [y]). rewrite rev_app_distr. exact Hy.
Qed.
Lemma ws_num_ws : forall c, is_ws c = false -> is_ws_num c = false.
Proof. intros c H. destruct (is_ws_num c) eqn:E; [|reflexivity]. apply ws_num_In in E. assert (is_ws c = true) by (apply ws_In, in_or_app; auto). congruence. Qed.
Lemma strip_num_tight : forall x s y, is_ws x = false -> is_ws y = false -> strip_num (x :: s ++ [y]) = x :: s ++ [y].
Proof. intros. apply strip_by_tight; apply ws_num_ws; assumption. Qed.
Lemma strip_tight : forall x s y, is_ws x = false -> is_ws y = false -> strip (x :: s ++ [y]) = x :: s ++ [y].
Proof. intros. apply strip_by_tight; assumption. Qed.
Lemma numch_ws : forall c, numch c = true -> is_ws c = false.
Proof. intros c H. apply numch_nonws in H. apply negb_true_iff. assumption. Qed.
Lemma field_glued : forall w a j t, t <> [] -> forallb numch t = true ->
  py_int (strip (rjust w (dec_Z a) ++ repeat blank j ++ t)) = Ok a -> j = 0 /\ forallb is_digit t = true /\ digits_val t = 0%Z.
Proof.
  intros w a j t Hn Ht H. unfold rjust in H. rewrite <- app_assoc in H. unfold strip in H.
  rewrite (strip_by_pre is_ws) in H by apply blanks_ws.
  assert (Hd := dec_Z_numch a). destruct (dec_Z a) as [|x s] eqn:E; [exfalso; exact (dec_Z_nonnil a E)|].
  cbn [forallb] in Hd. apply andb_true_iff in Hd as [Hx Hs].
  destruct (exists_last Hn) as (t' & y & Et).
  assert (Hy : numch y = true) by (rewrite Et, forallb_app in Ht; cbn [forallb] in Ht; apply andb_true_iff in Ht as [_ Ht]; rewrite andb_true_r in Ht; exact Ht).
  assert (Es : ((x :: s) ++ repeat blank j ++ t) = x :: (s ++ repeat blank j ++ t') ++ [y]) by (rewrite Et; cbn [app]; rewrite <- !app_assoc; reflexivity).
  change (strip_by is_ws) with strip in H. unfold py_int in H. rewrite Es in H. rewrite strip_tight, strip_num_tight in H by (apply numch_ws; assumption). rewrite <- Es in H.
  destruct (int_core _) as [z|] eqn:Ei; [|discriminate]. injection H as ->. destruct j as [|j].
  - split; [reflexivity|]. apply (int_core_glued a t Hn Ht). rewrite E. exact Ei.
  - exfalso. cbn [repeat] in Ei. apply (int_core_blank (x :: s) (repeat blank j ++ t) a). exact Ei.
Qed.
(** A number whose text begins with [t], all zeros, has few digits. *)
Lemma leading_zero : forall z t r, dec_Z z = t ++ r -> t <> [] -> forallb is_digit t = true -> digits_val t = 0%Z -> (0 <= z < 10 ^ Z.of_nat (length r))%Z.
Proof.
  intros z t r E Hn Hd Hv. unfold dec_Z in E. destruct (z <? 0)%Z eqn:Ez.
  - exfalso. destruct t as [|x t]; [congruence|]. injection E as E _. cbn [forallb] in Hd. apply andb_true_iff in Hd as [Hd _]. subst x. discriminate.
  - apply Z.ltb_ge in Ez. assert (Hr := dec_nat_digits z Ez). assert (Hz := dec_nat_val z Ez). rewrite E in Hr, Hz.
    rewrite forallb_app in Hr. apply andb_true_iff in Hr as [_ Hr]. rewrite digits_val_app2, Hv in Hz. assert (Hb := digits_val_bound r Hr). lia.
Qed.
