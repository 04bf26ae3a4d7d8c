(** Property C47 for every set of type 2414 that is not closed: what is written
    behind it is not found. *)
From Coq Require Import String List NArith ZArith Bool Lia Sorting.Sorted.
Import ListNotations.
From Verif Require Import PyBase PyNum Utf8 PyVal Tools DsNodes DsHeaders DsGroups Ds55 Ds58 Ds2414 Uff.
From Verif Require Import IntFacts Facts Scan Container Append ContainerThms PropContainer Utf8Facts DictFacts Lines Stored Cells Rows.
From Verif Require Import Witness RtNodes PropNodes PropHeads PropGroups PropNodal PropFun PropAnalysis PropHistory PropImitate.
From Coq Require Import Lia.
Open Scope string_scope.
Open Scope list_scope.
Open Scope nat_scope.

(* ------------------------------------------------------------------ *)
(** ** The text of such a set ends in a line break *)

Lemma fmt_specs_lf : forall l args s, fmt_specs (l ++ [FLit LF]) args = Ok s -> exists p, s = p ++ [LF].
Proof.
  induction l as [|sp l IH]; intros args s H.
  - cbn [app fmt_specs] in H. destruct args; [|discriminate]. injection H as <-. exists []. reflexivity.
  - cbn [app] in H. destruct sp as [c|w|lf w|w p]; cbn [fmt_specs] in H.
    1:{ destruct (fmt_specs (l ++ [FLit LF]) args) as [t|e] eqn:E; [|discriminate]. cbn [rbind] in H. injection H as <-.
        destruct (IH _ _ E) as [q ->]. exists (c :: q). reflexivity. }
    all: destruct args as [|v args]; [discriminate|];
      match type of H with rbind ?r _ = _ => destruct r as [s1|e]; [|discriminate] end; cbn [rbind] in H;
      destruct (fmt_specs (l ++ [FLit LF]) args) as [t|e] eqn:E; [|discriminate]; cbn [rbind] in H; injection H as <-;
      destruct (IH _ _ E) as [q ->]; exists (s1 ++ q); rewrite app_assoc; reflexivity.
Qed.
Lemma fmt6e_lf : forall args s, pct fmt6e args = Ok s -> exists p, s = p ++ [LF].
Proof.
  intros args s H. unfold pct in H. destruct (rseq args) as [vs|e]; [|discriminate]. cbn [rbind] in H.
  change (parse_fmt SNorm fmt6e) with (removelast (parse_fmt SNorm fmt6e) ++ [FLit LF]) in H. eapply fmt_specs_lf; eauto.
Qed.
Lemma run_last : forall l args f x, Forall no_trunc l -> run_items f (l ++ [txt fmt6e args]) = (x, None) -> closed x.
Proof.
  intros l args f x Hn H. apply run_app in H as (y & H1 & H2). unfold txt in H2.
  destruct (pct fmt6e args) as [s|e] eqn:E; [|discriminate]. apply run_txt in H2 as (bs & Hb & H2). cbn [run_items] in H2.
  injection H2 as <-. destruct (fmt6e_lf _ _ E) as [p ->]. rewrite utf8_enc_app in Hb.
  destruct (utf8_enc p) as [bp|]; [|discriminate]. change (utf8_enc [LF]) with (Some [LF]) in Hb. injection Hb as <-.
  right. exists (y ++ bp), LF. rewrite app_assoc. auto.
Qed.

Lemma eq_five : forall v k, py_eqZ v 5 = true -> In k [1; 2; 3]%Z -> py_eqZ v k = false.
Proof.
  assert (F : forall f k, f_eqb f (float_of_Z 5) = true -> In k [1; 2; 3]%Z -> f_eqb f (float_of_Z k) = false).
  { intros f k H Hk. unfold f_eqb, SFeqb in *.
    change (float_of_Z 5) with (S754_finite false 5629499534213120 (-50)) in H.
    assert (E : f = S754_finite false 5629499534213120 (-50)).
    { destruct f as [s|s| |s m e]; try (destruct s; discriminate H); [discriminate H|]. destruct s; [discriminate H|].
      cbn [SFcompare] in H. destruct (Z.compare e (-50)) eqn:Ee; try discriminate H. apply Z.compare_eq in Ee. subst e.
      destruct (Pos.compare_cont Eq m 5629499534213120) eqn:Em; try discriminate H. apply Pos.compare_eq in Em. subst m. reflexivity. }
    subst f. clear H. repeat (destruct Hk as [<-|Hk]; [vm_compute; reflexivity|]). destruct Hk. }
  intros v k H Hk. destruct v; cbn [py_eqZ] in *; try reflexivity.
  - apply Z.eqb_eq in H. rewrite H. repeat (destruct Hk as [<-|Hk]; [reflexivity|]). destruct Hk.
  - apply Z.eqb_eq in H. rewrite H. repeat (destruct Hk as [<-|Hk]; [reflexivity|]). destruct Hk.
  - apply F; assumption.
  - apply andb_true_iff in H as [H _]. rewrite F by assumption. reflexivity.
Qed.

(** The steps of such a set. *)
Lemma unclosed_items : forall c m fd ty d, py_eqZ ty 2414 = true -> (forall y, y <> 2414%Z -> py_eqZ ty y = false) -> unclosed2414 d ->
  Forall no_trunc (wp_items (write_dispatch c m fd ty d)) /\
  exists l args, wp_items (write_dispatch c m fd ty d) = l ++ [txt fmt6e args] /\ Forall no_trunc l.
Proof.
  intros c m fd ty d Ht Hn (a & l & Ha & Ha5 & Hl & Hl5). unfold write_dispatch. cbv zeta.
  repeat match goal with |- context [py_eqZ ty ?y] => first [rewrite Ht | rewrite (Hn y) by discriminate] end.
  unfold write2414. cbv zeta. cbn [wp_items]. unfold body2414. rewrite Ha, Ha5, Hl.
  rewrite (eq_five l 1 Hl5), (eq_five l 2 Hl5), (eq_five l 3 Hl5) by (cbn; auto). rewrite Hl5. rewrite app_nil_r.
  assert (F : Forall no_trunc
   ([txt "%6i\n%6i\n" [I (-1); I 2414]; txt "%10i\n" [ix (opt_fields d defaults2414) "analysis_dataset_label"];
    txt "%-80s\n" [ix (opt_fields d defaults2414) "analysis_dataset_name"]; txt "%10i\n" [Ok l]] ++
   map (fun k : string => txt "%-80s\n" [ix (opt_fields d defaults2414) k]) ["id1"; "id2"; "id3"; "id4"; "id5"] ++
   txt "%10i%10i%10i%10i%10i%10i\n" (map (ix (opt_fields d defaults2414)) names9)
   :: [txt fmt8 (map (ix (opt_fields d defaults2414)) (rec_names "10" 8)); txt fmt8 (map (ix (opt_fields d defaults2414)) (rec_names "11" 8));
       txt fmt6e (map (ix (opt_fields d defaults2414)) (rec_names "12" 6))])).
  { repeat constructor. }
  split.
  - repeat constructor.
  - eexists. exists (map (ix (opt_fields d defaults2414)) (rec_names "13" 6)). split; [|exact F]. reflexivity.
Qed.

Lemma unclosed_put : forall d v, unclosed2414 d -> unclosed2414 (dput d (KS "data") v).
Proof.
  intros d v (a & l & Ha & Ha5 & Hl & Hl5).
  assert (E : forall k, key_eqb (KS k) (KS "data") = false ->
            ix (opt_fields (dput d (KS "data") v) defaults2414) k = ix (opt_fields d defaults2414) k).
  { intros k Hk. unfold ix. rewrite !opt_fields_get, dget_dput, Hk. reflexivity. }
  exists a, l. rewrite !E by reflexivity. auto.
Qed.
Lemma unclosed_set : forall c m fd d, dget d (KS "type") = Some (VInt 2414) -> unclosed2414 d ->
  set_items c m fd d = [] \/
  (Forall no_trunc (set_items c m fd d) /\ exists l args, set_items c m fd d = l ++ [txt fmt6e args] /\ Forall no_trunc l).
Proof.
  intros c m fd d Ht Hu. unfold set_items. rewrite Ht.
  match goal with |- context [match ?r with Ok _ => _ | Err _ => _ end] => destruct r as [d1|ex] eqn:Ed end; [|auto].
  right. apply unclosed_items; [reflexivity|intros y Hy; apply Z.eqb_neq; congruence|].
  destruct (dget d (KS "data")) as [v|]; [|injection Ed as <-; assumption].
  destruct (np_nan_to_num v) as [v'|e]; cbn [rbind] in Ed; [injection Ed as <-|discriminate Ed]. apply unclosed_put. assumption.
Qed.

(* ------------------------------------------------------------------ *)
(** ** Blocks behind an opening line *)

(** Where the lines of the blocks are. *)
Fixpoint lines_at (off : nat) (l : list block) : list nat :=
  match l with
  | [] => []
  | b :: r => off :: off + (length (b_open b) + length (b_body b)) :: lines_at (off + length (block_bytes b)) r
  end.
Lemma lines_at_shift : forall l n off, map (Nat.add n) (lines_at off l) = lines_at (n + off) l.
Proof.
  induction l as [|b l IH]; intros n off; [reflexivity|]. cbn [lines_at map]. rewrite IH. f_equal. f_equal; [lia|]. f_equal. lia.
Qed.
Lemma tags_blocks : forall l, Forall framed l -> tags (file_of l) = lines_at 0 l.
Proof.
  induction l as [|b l IH]; intro H; [reflexivity|]. inversion H; subst. rewrite file_of_cons, tags_app_closed by (apply block_closed; assumption).
  rewrite block_tags, IH by assumption. rewrite lines_at_shift. cbn [lines_at app]. rewrite Nat.add_0_r. reflexivity.
Qed.

Definition gap_type : Z := Eval vm_compute in type_in [].
(** The sets of a file that ends in an unclosed block: its text reaches to the
    first block, and then only the text between two blocks is a set. *)
Lemma pairs_behind : forall l (pre post : bytes) ty x, x <= length pre -> l <> [] -> Forall framed l ->
  block_type (slice x (length pre) pre) = ty ->
  map (fun p => block_type (extract_block (pre ++ file_of l ++ post) p)) (pairs (x :: lines_at (length pre) l))
  = ty :: repeat gap_type (length l - 1).
Proof.
  induction l as [|b l IH]; intros pre post ty x Hx Hne Hf Hty; [congruence|]. inversion Hf as [|? ? Hb Hl]; subst.
  cbn [lines_at pairs map]. f_equal.
  - rewrite extract_block_app by (cbn [snd]; lia). unfold extract_block. cbn [fst snd]. reflexivity.
  - destruct l as [|b2 l]; [reflexivity|]. cbn [length]. rewrite Nat.sub_succ, Nat.sub_0_r.
    specialize (IH (pre ++ block_bytes b) post gap_type (length pre + (length (b_open b) + length (b_body b)))).
    assert (Hlen : length (pre ++ block_bytes b) = length pre + length (block_bytes b)) by apply app_length.
    rewrite Hlen in IH. rewrite (file_of_cons b). rewrite <- !app_assoc in IH. rewrite <- !app_assoc.
    refine (eq_trans (IH _ _ _ _) _).
    + clear. unfold block_bytes. rewrite !app_length. lia.
    + discriminate.
    + assumption.
    + destruct Hb as (_ & Hc & _).
      assert (E : slice (length pre + (length (b_open b) + length (b_body b))) (length pre + length (block_bytes b)) (pre ++ block_bytes b) = b_close b).
      { replace (pre ++ block_bytes b) with ((pre ++ b_open b ++ b_body b) ++ b_close b ++ []) by (unfold block_bytes; rewrite app_nil_r, <- !app_assoc; reflexivity).
        replace (length pre + (length (b_open b) + length (b_body b))) with (length (pre ++ b_open b ++ b_body b)) by (rewrite !app_length; lia).
        replace (length pre + length (block_bytes b)) with (length (pre ++ b_open b ++ b_body b) + length (b_close b)) by (unfold block_bytes; rewrite !app_length; lia).
        apply slice_app_mid. }
      rewrite E. rewrite <- (app_nil_r (b_close b)). rewrite block_type_open by assumption. reflexivity.
    + cbn [length]. rewrite Nat.sub_succ, Nat.sub_0_r. reflexivity.
Qed.

(** Adding framed blocks to a file in which the first of them completes a set. *)
Lemma add_behind : forall c fd ds bs, Forall2 (stored c Add fd) ds bs -> forall (old : bytes) u, ds <> [] -> closed old ->
  tags old <> [] ->
  write_list c Add fd (Some old) u ds = (Some (old ++ file_of bs), view (old ++ file_of bs), None).
Proof.
  intros c fd ds bs H. induction H as [|d b ds bs Hs H IH]; intros old u Hne Hc Ht; [congruence|].
  assert (E : exists d', write_set c Add fd (Some old) u d =
    {| w_file := Some (old ++ block_bytes b); w_uff := view (old ++ block_bytes b); w_dict := d'; w_exc := None |}).
  { destruct Hs as [Hf Hr]. unfold write_set. cbv zeta. specialize (Hr old). unfold set_items in Hr.
    assert (Hn : forall X (P : Prop), (old, @None X) = (old ++ block_bytes b, None) -> P).
    { intros X P E. exfalso. assert (El := f_equal (fun p => length (fst p)) E). cbn [fst] in El. rewrite app_length in El.
      destruct Hf as (Ho & _). apply delim_line_nonnil in Ho. unfold block_bytes in El. rewrite !app_length in El.
      destruct (b_open b); [congruence|]. cbn [length] in El. lia. }
    destruct (dget d (KS "type")) as [ty|]; [|eapply Hn; exact Hr].
    match goal with |- context [match ?r with Ok _ => _ | Err _ => _ end] => destruct r as [d1|ex] end; [|eapply Hn; exact Hr].
    rewrite Hr. rewrite refresh_view; [eexists; reflexivity|].
    unfold extents. rewrite tags_app_closed by assumption. rewrite block_tags by assumption.
    destruct (tags old) as [|t1 [|t2 tl]]; [congruence|discriminate|discriminate]. }
  destruct E as [d' E]. cbn [write_list]. rewrite E. cbn [w_exc w_file w_uff].
  rewrite file_of_cons, app_assoc. destruct ds as [|d2 ds].
  - inversion H; subst. cbn [write_list]. cbn [file_of map concat]. rewrite app_nil_r. reflexivity.
  - apply IH; [discriminate| |].
    + apply closed_app2; [assumption|]. apply block_closed. apply Hs.
    + rewrite tags_app_closed by assumption. destruct (tags old); [congruence|discriminate].
Qed.

(* ------------------------------------------------------------------ *)
(** ** What happens to a set that is not closed *)

(** A set of type 2414 at location 5 (and not a frequency response) whose text
    contains no delimiter of its own, written to a file whose sets are all closed:
    the file has as many sets as before.  If any number of sets is then added, of
    any type and whatever they contain, the first set found behind the old ones is
    said to be of type 2414, and the others are empty texts between two blocks, of
    type 0; none of the added sets is found. *)
Theorem C47_open_refuted : forall c m fd d file u b u',
  dget d (KS "type") = Some (VInt 2414) -> unclosed2414 d -> appendable (kept m file) ->
  write_sets c file u [d] (mode_name m) fd = (Some b, u', None) ->
  (forall i, length (kept m file) < i -> ~ delim_at b i) ->
  exists u0 u1, uff_new (Some (kept m file)) = Ok u0 /\ uff_new (Some b) = Ok u1 /\
    n_sets u1 = n_sets u0 /\ block_ind u1 = block_ind u0 /\ set_types u1 = set_types u0 /\
    forall c2 fd2 u2 ds bs, ds <> [] -> Forall2 (stored c2 Add fd2) ds bs ->
    exists u3, write_sets c2 (Some b) u2 ds (lit "add") fd2 = (Some (b ++ file_of bs), u3, None) /\
      uff_new (Some (b ++ file_of bs)) = Ok u3 /\
      n_sets u3 = n_sets u0 + length ds /\
      set_types u3 = set_types u0 ++ 2414%Z :: repeat 0%Z (length ds - 1).
Proof.
  intros c m fd d file u b u' Ht Hu Ha Hw Hd.
  assert (Hit : set_items c m fd d <> []).
  { intro E. unfold write_sets in Hw. rewrite parse_mode_name in Hw. cbn [write_list] in Hw. unfold write_set in Hw. cbv zeta in Hw.
    unfold set_items in E. rewrite Ht in Hw, E.
    match type of E with context [match ?r with Ok _ => _ | Err _ => _ end] => destruct r as [d1|ex] eqn:Ed end; [|discriminate Hw].
    assert (Hu1 : unclosed2414 d1).
    { destruct (dget d (KS "data")) as [v|]; [|injection Ed as <-; assumption].
      destruct (np_nan_to_num v) as [v'|e]; cbn [rbind] in Ed; [injection Ed as <-|discriminate Ed]. apply unclosed_put. assumption. }
    destruct (unclosed_items c m fd (VInt 2414) d1 eq_refl) as (_ & l & args & El & _); [intros y Hy; apply Z.eqb_neq; congruence|assumption|].
    rewrite El in E. destruct l; discriminate. }
  destruct (unclosed_set c m fd d Ht Hu) as [E|(Hn & l & args & El & Hnl)]; [congruence|].
  assert (Hr := accepted_run _ _ _ _ _ _ _ _ _ Ht Hw Hit).
  assert (Hcl : closed b) by (rewrite El in Hr; eapply run_last; eauto).
  destruct (write_one c m fd d 2414 file u b u') as [(rest & Hb & _) _]; [unfold known; cbn; tauto|assumption|assumption|assumption|].
  set (old := kept m file) in *. apply appendable_even in Ha as [Hc He].
  assert (Tb : tags b = tags old ++ [length old]).
  { rewrite Hb, tags_app_closed by assumption. f_equal.
    assert (Hs := tags_sorted (TLINE ++ six 2414 ++ rest)).
    assert (H0 : In 0 (tags (TLINE ++ six 2414 ++ rest))).
    { rewrite tags_app_closed by (right; exists TAG, LF; auto). left. reflexivity. }
    assert (Hx : forall i, In i (tags (TLINE ++ six 2414 ++ rest)) -> i = 0).
    { intros i Hi. destruct i as [|i]; [reflexivity|]. exfalso. apply (Hd (length old + S i)); [lia|]. apply tags_In. rewrite Hb, tags_app_closed by assumption.
      apply in_or_app. right. apply in_map. assumption. }
    destruct (tags (TLINE ++ six 2414 ++ rest)) as [|t0 tl]; [destruct H0|].
    assert (t0 = 0) by (apply Hx; left; reflexivity). subst t0. destruct tl as [|t1 tl]; [cbn [map]; rewrite Nat.add_0_r; reflexivity|].
    assert (t1 = 0) by (apply Hx; right; left; reflexivity). subst t1. inversion Hs as [|? ? _ Hf]; subst. inversion Hf; subst. lia. }
  assert (Eb : extents b = extents old).
  { unfold extents. rewrite Tb, pairs_app by assumption. apply app_nil_r. }
  assert (Tb' : forall p, In p (extents old) -> extract_block b p = extract_block old p).
  { intros [s e] Hp. rewrite Hb. apply extract_block_app. cbn [snd]. eapply extents_bound; eauto. }
  exists (view old), (view b). split; [apply uff_new_view|]. split; [apply uff_new_view|].
  unfold view. cbn [n_sets block_ind set_types]. rewrite Eb. split; [reflexivity|]. split; [reflexivity|].
  split; [apply map_ext_in; intros p Hp; rewrite Tb' by assumption; reflexivity|].
  intros c2 fd2 u2 ds bs Hne HF.
  assert (Hfr : Forall framed bs). { clear -HF. induction HF as [|? ? ? ? [H _]]; constructor; assumption. }
  exists (view (b ++ file_of bs)).
  split. { unfold write_sets. change (parse_mode (lit "add")) with (Ok Add). cbn iota.
           destruct ds as [|d0 ds0] eqn:Eds; [congruence|]. rewrite <- Eds in *. apply (add_behind c2 fd2 ds bs HF b u2 Hne Hcl).
           rewrite Tb. destruct (tags old); discriminate. }
  split; [apply uff_new_view|].
  assert (Hlen : length ds = length bs) by (clear -HF; induction HF; cbn; congruence).
  assert (Hnb : bs <> []) by (intros ->; destruct ds; [congruence|discriminate]).
  assert (E3 : extents (b ++ file_of bs) = extents old ++ pairs (length old :: lines_at (length b) bs)).
  { unfold extents. rewrite tags_app_closed by assumption. rewrite Tb, tags_blocks, lines_at_shift, Nat.add_0_r by assumption.
    rewrite <- app_assoc. rewrite pairs_app by assumption. reflexivity. }
  assert (Htm : map (fun p => block_type (extract_block (b ++ file_of bs) p)) (pairs (length old :: lines_at (length b) bs))
     = 2414%Z :: repeat 0%Z (length bs - 1)).
  { assert (P := pairs_behind bs b [] 2414%Z (length old)). rewrite app_nil_r in P. apply P; [|assumption|assumption|].
    - rewrite Hb, app_length. lia.
    - rewrite Hb. rewrite app_length. rewrite <- (app_nil_r (TLINE ++ six 2414 ++ rest)) at 2. rewrite slice_app_mid.
      rewrite block_type_open by (left; reflexivity). apply type_six. unfold known. cbn. tauto. }
  unfold view. cbn [n_sets set_types]. rewrite E3, app_length, map_app. rewrite Htm, Hlen. split.
  - f_equal. assert (L := f_equal (@length Z) Htm). rewrite map_length in L. rewrite L. cbn [length]. rewrite repeat_length.
    destruct bs; [congruence|]. cbn [length]. lia.
  - f_equal. apply map_ext_in. intros p Hp. rewrite extract_block_app; [rewrite Tb' by assumption; reflexivity|].
    destruct p as [s e]. cbn [snd]. rewrite Hb, app_length. assert (Q := extents_bound old s e Hp). lia.
Qed.
Print Assumptions C47_open_refuted.
Example C47_open_example : exists b u', dget d2414_five (KS "type") = Some (VInt 2414) /\ unclosed2414 d2414_five /\ appendable (kept Add (Some ex_old)) /\
  write_sets noclock (Some ex_old) uff0 [d2414_five] (mode_name Add) true = (Some b, u', None) /\
  (forall i, length (kept Add (Some ex_old)) < i -> ~ delim_at b i) /\
  exists bs, Forall2 (stored noclock Add true) [d164; d15; d2400] bs.
Proof.
  set (w := write_sets noclock (Some ex_old) uff0 [d2414_five] (mode_name Add) true).
  set (b := match w with (Some f, _, _) => f | _ => [] end). exists b, (snd (fst w)).
  split; [vm_compute; reflexivity|].
  split. { exists (VInt 1), (VInt 5). repeat split; vm_compute; reflexivity. }
  split. { split; [right; exists (removelast ex_old), LF; split; [vm_compute; reflexivity|auto]|].
    intros ps Hp. rewrite (delimiters_length _ _ Hp). exists 1. vm_compute. reflexivity. }
  split; [vm_compute; reflexivity|].
  split. { intros i Hi Hd. apply tags_In in Hd. assert (E : tags b = [0; 23; 30]) by (vm_compute; reflexivity). rewrite E in Hd.
    assert (El : length (kept Add (Some ex_old)) = 30) by (vm_compute; reflexivity). rewrite El in Hi.
    cbn [In] in Hd. lia. }
  destruct (list_blocks noclock true [d164; d15; d2400] [X164 u164; X15 r15; X2400 h2400]) as (bs & H & _); [|exists bs; exact H].
  repeat first [apply Forall2_cons | apply Forall2_nil]; cbn [states]; first [exact C38_example | exact C23_example | exact C41_example].
Qed.
