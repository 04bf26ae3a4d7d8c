(** A set that is written as one framed block: reading it back, alone and in a
    history of calls. *)
From Verif Require Import PyBase PyNum PyVal Utf8 Tools DsNodes DsHeaders Uff Facts Scan Container Append ContainerThms Utf8Facts Lines.
From Coq Require Import Lia.
Open Scope nat_scope.
Open Scope list_scope.

(** The writing call for [d] appends exactly the bytes of [b]. *)
Definition stored (c : clock) (m : wmode) (fd : bool) (d : dict) (b : block) : Prop :=
  framed b /\ forall start, run_items start (set_items c m fd d) = (start ++ block_bytes b, None).
(** Reading the block gives [out]. *)
Definition reads (b : block) (ho : bool) (out : dict) : Prop :=
  extract_set (type_in (b_body b)) (b_open b ++ b_body b) ho = Ok out.

(** A file to which sets can be appended: empty or ending in a line break, with
    an even number of delimiters. *)
Definition appendable (old : bytes) : Prop := closed old /\ forall ps, delimiters old ps -> Nat.Even (length ps).
Definition kept (m : wmode) (file : option bytes) : bytes :=
  match m, file with Add, Some b => b | _, _ => [] end.
Definition mode_name (m : wmode) : str := match m with Add => lit "add" | Overwrite => lit "overwrite" end.

Lemma parse_mode_name : forall m, parse_mode (mode_name m) = Ok m.
Proof. intros []; reflexivity. Qed.

Lemma appendable_even : forall a, appendable a -> closed a /\ Nat.Even (length (tags a)).
Proof. intros a [H1 H2]. split; [assumption|]. apply H2, delimiters_tags. Qed.
Lemma appendable_nil : appendable [].
Proof.
  split; [left; reflexivity|]. intros ps Hp. rewrite (delimiters_length _ _ Hp). exists 0. reflexivity.
Qed.
Lemma even_tags_appendable : forall a, closed a -> Nat.Even (length (tags a)) -> appendable a.
Proof. intros a H1 H2. split; [assumption|]. intros ps Hp. rewrite (delimiters_length _ _ Hp). assumption. Qed.
Lemma appendable_block : forall a b, appendable a -> framed b -> appendable (a ++ block_bytes b).
Proof.
  intros a b Ha Hb. apply appendable_even in Ha as [Hc He]. apply even_tags_appendable.
  - apply closed_app2; [assumption|apply block_closed; assumption].
  - rewrite tags_app_closed by assumption. rewrite block_tags by assumption. rewrite app_length, map_length. cbn [length].
    destruct He as [k ->]. exists (S k). lia.
Qed.

(** Sets of a file after one more block. *)
Lemma extents_block : forall a b, appendable a -> framed b ->
  extents (a ++ block_bytes b) = extents a ++ [(length a, length a + (length (b_open b) + length (b_body b)))].
Proof.
  intros a b Ha Hb. apply appendable_even in Ha as [Hc He]. rewrite extents_app by assumption.
  unfold extents at 2. rewrite block_tags by assumption. cbn [pairs map fst snd]. rewrite Nat.add_0_r. reflexivity.
Qed.
Lemma extract_last : forall a b, extract_block (a ++ block_bytes b) (length a, length a + (length (b_open b) + length (b_body b)))
  = b_open b ++ b_body b.
Proof.
  intros a b. unfold extract_block, block_bytes. cbn [fst snd]. rewrite (app_assoc (b_open b)).
  rewrite <- (app_length (b_open b)). apply slice_app_mid.
Qed.
Lemma set_at_old : forall a b ho k, appendable a -> framed b -> k < length (extents a) ->
  set_at (a ++ block_bytes b) ho (Z.of_nat k) = set_at a ho (Z.of_nat k).
Proof.
  intros a b ho k Ha Hb Hk. unfold set_at. rewrite extents_block by assumption. rewrite app_length. cbn [length].
  rewrite (proj2 (Z.leb_le 0 (Z.of_nat k))) by lia.
  rewrite !(proj2 (Z.ltb_lt (Z.of_nat k) _)) by lia. cbn [andb]. rewrite Nat2Z.id.
  rewrite nth_error_app1 by assumption.
  destruct (nth_error (extents a) k) as [[s e]|] eqn:E; [|reflexivity].
  rewrite extract_block_app by (cbn [snd]; apply nth_error_In in E; eapply extents_bound; eauto). reflexivity.
Qed.
Lemma set_at_new : forall a b ho, appendable a -> framed b ->
  set_at (a ++ block_bytes b) ho (Z.of_nat (length (extents a))) = extract_set (type_in (b_body b)) (b_open b ++ b_body b) ho.
Proof.
  intros a b ho Ha Hb. unfold set_at. rewrite extents_block by assumption. rewrite app_length. cbn [length].
  rewrite (proj2 (Z.leb_le 0 (Z.of_nat _))) by lia. rewrite (proj2 (Z.ltb_lt (Z.of_nat _) _)) by lia. cbn [andb]. rewrite Nat2Z.id.
  rewrite nth_error_app2 by lia. rewrite Nat.sub_diag. cbn [nth_error]. rewrite extract_last.
  destruct Hb as (Ho & _). rewrite block_type_open by assumption. reflexivity.
Qed.

(** The writing call succeeds. *)
Lemma stored_write : forall c m fd d b file u, stored c m fd d b -> appendable (kept m file) ->
  exists d', write_set c m fd file u d =
    {| w_file := Some (kept m file ++ block_bytes b); w_uff := view (kept m file ++ block_bytes b); w_dict := d'; w_exc := None |}.
Proof.
  intros c m fd d b file u [Hf Hr] Ha. unfold write_set. cbv zeta.
  specialize (Hr (kept m file)). unfold set_items in Hr.
  assert (Hne : forall X (P : Prop), (kept m file, @None X) = (kept m file ++ block_bytes b, None) -> P).
  { intros X P E. exfalso. assert (El := f_equal (fun p => length (fst p)) E). cbn [fst] in El. rewrite app_length in El.
    destruct Hf as (Ho & _). apply delim_line_nonnil in Ho. unfold block_bytes in El. rewrite !app_length in El.
    destruct (b_open b); [congruence|]. cbn [length] in El. lia. }
  destruct (dget d (KS "type")) as [ty|]; [|eapply Hne; exact Hr].
  match goal with |- context [match ?r with Ok _ => _ | Err _ => _ end] => destruct r as [d1|ex] end; [|eapply Hne; exact Hr].
  match goal with |- context [run_items ?s ?i] => change (run_items s i) with (run_items (kept m file) i) end.
  rewrite Hr. rewrite refresh_view.
  2:{ rewrite extents_block by assumption. destruct (extents (kept m file)); discriminate. }
  eexists. reflexivity.
Qed.

(** Reading back a single set: [out] is found at the next index, every earlier
    set is unchanged. *)
Definition round_trips (c : clock) (m : wmode) (fd ho : bool) (d out : dict) : Prop :=
  forall file u, appendable (kept m file) ->
  exists new u0 u', uff_new (Some (kept m file)) = Ok u0 /\
    write_sets c file u [d] (mode_name m) fd = (Some (kept m file ++ new), u', None) /\
    get_n_sets (Some (kept m file ++ new)) u' = Ok (u', S (n_sets u0)) /\
    read_sets (Some (kept m file ++ new)) u' (SelOne (Z.of_nat (n_sets u0))) ho = Ok (u', One out) /\
    appendable (kept m file ++ new).

Lemma stored_round_trips : forall c m fd ho d out b, stored c m fd d b -> reads b ho out -> round_trips c m fd ho d out.
Proof.
  intros c m fd ho d out b Hs Hr file u Ha.
  destruct (stored_write c m fd d b file u Hs Ha) as [d' Hw].
  exists (block_bytes b), (view (kept m file)), (view (kept m file ++ block_bytes b)).
  split; [apply uff_new_view|]. destruct Hs as [Hf _].
  split. { unfold write_sets. rewrite parse_mode_name. cbn [write_list]. rewrite Hw. reflexivity. }
  split. { unfold get_n_sets. rewrite sync_view. cbn [rbind]. unfold view. cbn [n_sets].
           rewrite extents_block by assumption. rewrite app_length. cbn [length]. rewrite Nat.add_1_r. reflexivity. }
  split. { rewrite c06. unfold rmap, wanted. cbn [map rseq]. change (n_sets (view (kept m file))) with (length (extents (kept m file))).
           rewrite set_at_new by assumption. unfold reads in Hr. rewrite Hr. reflexivity. }
  apply appendable_block; assumption.
Qed.

(* ------------------------------------------------------------------ *)
(** ** Text blocks *)

(** Without 'data' entry, the steps are those of the writer of the type. *)
Lemma set_items_text : forall c m fd d ty, dget d (KS "type") = Some ty -> dget d (KS "data") = None ->
  set_items c m fd d = wp_items (write_dispatch c m fd ty d).
Proof. intros c m fd d ty H1 H2. unfold set_items. rewrite H1, H2. reflexivity. Qed.

Lemma stored_text : forall c m fd d ty l0 ls,
  writes (set_items c m fd d) (TLINE ++ unlines (l0 :: ls) ++ TLINE) ->
  Forall okline (l0 :: ls) -> type_line ty l0 = true ->
  exists b, stored c m fd d b /\ type_in (b_body b) = ty /\ b_open b = TLINE /\
    utf8_enc (unlines (l0 :: ls)) = Some (b_body b) /\
    utf8_decode (b_open b ++ b_body b) = unlines (TAG :: l0 :: ls).
Proof.
  intros c m fd d ty l0 ls Hw Hok Hty. destruct (text_block_ok ty l0 ls Hok Hty) as (body & Hb & He & Hf & Ht & Hd).
  exists (text_block body). split; [|auto]. split; [assumption|]. intro start. eapply writes_run; eauto.
Qed.

(* ------------------------------------------------------------------ *)
(** ** Histories *)

Definition hist := list (clock * wmode * bool * list dict).
Fixpoint run_hist (h : hist) (file : option bytes) (u : uff) : option bytes * uff * option exc :=
  match h with
  | [] => (file, u, None)
  | (c, m, fd, ds) :: r =>
      match write_sets c file u ds (mode_name m) fd with
      | (f', u', None) => run_hist r f' u'
      | x => x
      end
  end.
(** The sets in the file after a call that stores [outs]. *)
Definition replay1 {A} (m : wmode) (old : list A) (outs : list A) : list A :=
  match m with Overwrite => outs | Add => old ++ outs end.

Definition stored_list (c : clock) (m : wmode) (fd : bool) (ds : list dict) (bs : list block) : Prop :=
  ds <> [] /\ match ds, bs with
  | d :: ds', b :: bs' => stored c m fd d b /\ Forall2 (stored c Add fd) ds' bs'
  | _, _ => False
  end.

Lemma file_of_app : forall a b, file_of (a ++ b) = file_of a ++ file_of b.
Proof. intros a b. unfold file_of. rewrite map_app, concat_app. reflexivity. Qed.
Lemma file_of_one : forall b, file_of [b] = block_bytes b.
Proof. intro b. unfold file_of. cbn. apply app_nil_r. Qed.
Lemma even_file : forall l, Forall framed l -> appendable (file_of l).
Proof.
  intros l H. apply even_tags_appendable; [apply file_closed; assumption|].
  induction H as [|b l Hb Hl IH]; [exists 0; reflexivity|]. rewrite file_of_cons.
  rewrite tags_app_closed by (apply block_closed; assumption). rewrite block_tags by assumption.
  rewrite app_length, map_length. cbn [length]. destruct IH as [k ->]. exists (S k). lia.
Qed.

Lemma write_list_stored : forall c fd ds bs, Forall2 (stored c Add fd) ds bs -> forall old u, Forall framed old ->
  old <> [] -> u = view (file_of old) ->
  write_list c Add fd (Some (file_of old)) u ds = (Some (file_of (old ++ bs)), view (file_of (old ++ bs)), None)
  /\ Forall framed (old ++ bs).
Proof.
  intros c fd ds bs H. induction H as [|d b ds bs Hs _ IH]; intros old u Ho Hne Hu.
  - rewrite app_nil_r. subst. split; [reflexivity|assumption].
  - cbn [write_list]. destruct (stored_write c Add fd d b (Some (file_of old)) u Hs (even_file old Ho)) as [d' ->].
    cbn [w_exc w_file w_uff kept]. rewrite <- file_of_one, <- file_of_app.
    destruct (IH (old ++ [b]) (view (file_of (old ++ [b])))) as [H1 H2].
    + apply Forall_app. split; [assumption|]. destruct Hs. auto.
    + destruct old; discriminate.
    + reflexivity.
    + rewrite <- app_assoc in H1, H2. auto.
Qed.

Lemma write_sets_stored : forall c m fd ds bs old u, stored_list c m fd ds bs -> Forall framed old ->
  write_sets c (match old with [] => None | _ => Some (file_of old) end) u ds (mode_name m) fd
    = (Some (file_of (replay1 m old bs)), view (file_of (replay1 m old bs)), None)
  /\ Forall framed (replay1 m old bs) /\ replay1 m old bs <> [].
Proof.
  intros c m fd ds bs old u [Hne H] Ho. destruct ds as [|d ds]; [congruence|]. destruct bs as [|b bs]; [contradiction|].
  destruct H as [Hd Hds]. unfold write_sets. rewrite parse_mode_name. cbn [write_list].
  set (file := match old with [] => None | _ => Some (file_of old) end).
  set (base := match m with Overwrite => [] | Add => old end).
  assert (Hk : kept m file = file_of base). { unfold file, base. destruct m, old; reflexivity. }
  assert (Hb : Forall framed base). { unfold base. destruct m; auto. }
  destruct (stored_write c m fd d b file u Hd) as [d' ->]. { rewrite Hk. apply even_file. assumption. }
  cbn [w_exc w_file w_uff]. rewrite Hk. rewrite <- file_of_one, <- file_of_app.
  destruct (write_list_stored c fd ds bs Hds (base ++ [b]) (view (file_of (base ++ [b])))) as [H1 H2].
  - apply Forall_app. split; [assumption|]. destruct Hd. auto.
  - destruct base; discriminate.
  - reflexivity.
  - rewrite <- app_assoc in H1, H2. cbn [app] in H1, H2.
    assert (E : replay1 m old (b :: bs) = base ++ b :: bs) by (destruct m; reflexivity). rewrite E.
    split; [assumption|]. split; [assumption|]. destruct base; discriminate.
Qed.

Lemma Forall2_len : forall A B (P : A -> B -> Prop) a b, Forall2 P a b -> length a = length b.
Proof. intros A B P a b H. induction H; cbn; congruence. Qed.

(** Reading all sets of a file of blocks. *)
Lemma read_blocks : forall bs ho outs, Forall framed bs -> Forall2 (fun b o => reads b ho o) bs outs ->
  read_sets (Some (file_of bs)) (view (file_of bs)) SelAll ho = Ok (view (file_of bs), shape_result outs) /\
  (forall i o, nth_error outs i = Some o ->
     read_sets (Some (file_of bs)) (view (file_of bs)) (SelOne (Z.of_nat i)) ho = Ok (view (file_of bs), One o)) /\
  n_sets (view (file_of bs)) = length outs /\
  set_types (view (file_of bs)) = map (fun b => type_in (b_body b)) bs.
Proof.
  intros bs ho outs Hf H2.
  assert (Hat : forall i b o, nth_error bs i = Some b -> nth_error outs i = Some o -> set_at (file_of bs) ho (Z.of_nat i) = Ok o).
  { intros i b o Hb Ho. assert (Hv := view_framed bs Hf).
    assert (Hl : length (extents (file_of bs)) = length bs) by (rewrite (file_extents bs Hf); apply block_extents_length).
    assert (Hi : i < length bs) by (apply nth_error_Some; congruence).
    unfold set_at. rewrite Hl.
    rewrite (proj2 (Z.leb_le 0 (Z.of_nat _))) by lia. rewrite (proj2 (Z.ltb_lt (Z.of_nat _) _)) by lia. cbn [andb]. rewrite Nat2Z.id.
    assert (Hr := block_extents_read bs [] []). rewrite app_nil_r in Hr. cbn [app length] in Hr.
    apply (f_equal (fun l => nth_error l i)) in Hr. rewrite !nth_error_map, Hb in Hr.
    rewrite (file_extents bs Hf). destruct (nth_error (block_extents 0 bs) i) as [p|]; [|discriminate].
    cbn [option_map] in Hr. assert (Ep : extract_block (file_of bs) p = b_open b ++ b_body b) by congruence.
    rewrite Ep. assert (Hfb : framed b) by (rewrite Forall_forall in Hf; apply Hf; eapply nth_error_In; eauto).
    rewrite block_type_open by apply Hfb.
    clear -H2 Hb Ho. revert i Hb Ho. induction H2 as [|b' o' bs outs Hx _ IH]; intros i Hb Ho; [destruct i; discriminate|].
    destruct i as [|i]; cbn in Hb, Ho; [|eauto]. injection Hb as ->. injection Ho as ->. exact Hx. }
  assert (Hlen := Forall2_len _ _ _ _ _ H2).
  assert (Hl : length (extents (file_of bs)) = length bs) by (rewrite (file_extents bs Hf); apply block_extents_length).
  split; [|split; [|split]].
  - rewrite c06. unfold wanted. rewrite Hl, Hlen. unfold rmap. rewrite map_map.
    assert (Hm : rseq (map (fun x => set_at (file_of bs) ho (Z.of_nat x)) (seq 0 (length outs))) = Ok outs).
    { assert (Hg : forall n k, n + k = length outs ->
         rseq (map (fun x => set_at (file_of bs) ho (Z.of_nat x)) (seq n k)) = Ok (skipn n outs)).
      { intros n k. revert n. induction k as [|k IH]; intros n Hnk.
        - rewrite Nat.add_0_r in Hnk. rewrite skipn_all2 by lia. reflexivity.
        - cbn [seq map rseq]. destruct (nth_error outs n) as [o|] eqn:Eo; [|apply nth_error_None in Eo; lia].
          destruct (nth_error bs n) as [b|] eqn:Eb; [|apply nth_error_None in Eb; lia].
          rewrite (Hat n b o Eb Eo). cbn [rbind]. rewrite IH by lia. cbn [rbind].
          apply nth_error_split in Eo as (l1 & l2 & -> & Hl1). rewrite (skipn_app_exact _ n) by assumption.
          change (o :: l2) with ([o] ++ l2). rewrite app_assoc. rewrite skipn_app_exact by (rewrite app_length; cbn; lia). reflexivity. }
      apply (Hg 0). reflexivity. }
    rewrite Hm. cbn [try_any rbind]. destruct outs as [|x [|y outs]]; reflexivity.
  - intros i o Ho. rewrite c06. unfold wanted, rmap. cbn [map rseq].
    destruct (nth_error bs i) as [b|] eqn:Eb.
    2:{ apply nth_error_None in Eb. assert (i < length outs) by (apply nth_error_Some; congruence). lia. }
    rewrite (Hat i b o Eb Ho). reflexivity.
  - unfold view. cbn [n_sets]. congruence.
  - rewrite (view_framed bs Hf). reflexivity.
Qed.
