(** Property C13: which accepted data sets are found again as one set.

    Every writer frames its text in two delimiter lines and says its type in the
    first line between them (with the one exception of type 2414 at location 5,
    which writes no closing line).  Whether the file then holds exactly one more
    set is decided by the text between them alone: it must not contain a
    delimiter.  The writers do not check that. *)
From Coq Require Import String List NArith ZArith Bool Lia.
Import ListNotations.
From Verif Require Import PyBase PyNum Utf8 PyVal Tools DsNodes DsHeaders DsGroups Ds55 Ds58 Ds2414 Uff.
From Verif Require Import IntFacts Facts Scan Container Append ContainerThms PropContainer Utf8Facts DictFacts Lines Stored Cells Rows.
From Verif Require Import Witness RtNodes PropNodes PropHeads PropGroups PropNodal PropFun PropAnalysis PropHistory.
From Verif Require Import FloatFacts FloatText QFacts.
From Coq Require Import Lia.
Open Scope string_scope.
Open Scope list_scope.
Open Scope nat_scope.

(* ------------------------------------------------------------------ *)
(** ** Every writer frames its text *)

(** Steps that raise somewhere. *)
Definition fails (l : list item) : Prop := exists e, In (WTxt (Err e)) l.
(** Steps beginning with the opening line and [p], and ending in the closing line
    (if [cl]). *)
Definition frames (p : str) (cl : bool) (l : list item) : Prop :=
  fails l \/ exists r mid, l = WTxt (Ok (TLINE ++ p ++ r)) :: mid ++ (if cl then [end_line] else []).

Lemma fails_run : forall l f b, fails l -> run_items f l <> (b, None).
Proof.
  intros l f b [e He]. revert f. induction l as [|i l IH]; intro f; [destruct He|].
  destruct He as [->|He]; [cbn; congruence|]. cbn [run_items]. destruct i as [[s|e']|b'|].
  - destruct (utf8_encode s); [auto|congruence].
  - congruence.
  - auto.
  - auto.
Qed.
Lemma fails_app_l : forall a b, fails a -> fails (a ++ b).
Proof. intros a b [e H]. exists e. apply in_or_app. auto. Qed.
Lemma fails_app_r : forall a b, fails b -> fails (a ++ b).
Proof. intros a b [e H]. exists e. apply in_or_app. auto. Qed.
Lemma fails_cons : forall i b, fails b -> fails (i :: b).
Proof. intros a b [e H]. exists e. right. auto. Qed.
Lemma fails_one : forall e, fails [WTxt (Err e)].
Proof. intro e. exists e. left. reflexivity. Qed.

(** The rest of the steps: raises somewhere, or ends in the closing line. *)
Definition ends (l : list item) : Prop := fails l \/ exists mid, l = mid ++ [end_line].
Lemma ends_app : forall a b, ends b -> ends (a ++ b).
Proof.
  intros a b [H|[mid ->]]; [left; apply fails_app_r; assumption|]. right. exists (a ++ mid). rewrite app_assoc. reflexivity.
Qed.
Lemma ends_cons : forall i b, ends b -> ends (i :: b).
Proof. intros i b H. apply (ends_app [i]). assumption. Qed.
Lemma ends_line : ends [end_line].
Proof. right. exists []. reflexivity. Qed.
Lemma ends_err : forall e, ends [WTxt (Err e)].
Proof. intro e. left. apply fails_one. Qed.
Lemma frames_ends : forall i p r l, i = WTxt (Ok (TLINE ++ p ++ r)) -> ends l -> frames p true (i :: l).
Proof.
  intros i p r l -> [H|[mid ->]]; [left; apply fails_cons; assumption|]. right. eauto.
Qed.
Lemma frames_err : forall p cl e, frames p cl [WTxt (Err e)].
Proof. intros. left. apply fails_one. Qed.

Ltac ends_tac := repeat (apply ends_line || apply ends_err || apply ends_cons || apply ends_app).
Ltac hdr rest := eapply (frames_ends _ _ rest); [vm_compute; reflexivity|].

(** The type in six columns. *)
Definition six (ty : Z) : str := rjust 6 (dec_Z ty).
Definition pad74 : str := repeat blank 74 ++ [LF].

(** Type 2414 away from frequency responses, at location 5. *)
Definition unclosed2414 (d : dict) : Prop :=
  exists a l, ix (opt_fields d defaults2414) "analysis_type" = Ok a /\ py_eqZ a 5 = false /\
    ix (opt_fields d defaults2414) "dataset_location" = Ok l /\ py_eqZ l 5 = true.

Definition known (z : Z) : Prop :=
  In z [15; 18; 55; 58; 82; 151; 164; 1858; 2400; 2411; 2412; 2414; 2420; 2429; 2467]%Z.
Lemma write_frames : forall c m fd ty z d, known z ->
  py_eqZ ty z = true -> (forall y, y <> z -> py_eqZ ty y = false) ->
  frames (six z) true (wp_items (write_dispatch c m fd ty d)) \/
  (z = 2414%Z /\ unclosed2414 d /\ frames (six z) false (wp_items (write_dispatch c m fd ty d))).
Proof.
  intros c m fd ty z d Hz Ht Hn. unfold write_dispatch. cbv zeta.
  repeat (destruct Hz as [<-|Hz];
    [repeat match goal with |- context [py_eqZ ty ?y] => first [rewrite Ht | rewrite (Hn y) by discriminate] end|]);
  [..|destruct Hz].
  - left. unfold write15. destruct (rbind _ _) as [n|e]; [|apply frames_err]. cbn [wp_items].
    hdr [LF]. apply ends_app. right. exists []. vm_compute. reflexivity.
  - left. unfold write18. destruct (rbind _ _) as [n|e]; [|apply frames_err]. cbn [wp_items]. hdr pad74. ends_tac.
  - left. unfold write55. destruct (prep55 d) as [d1 [z|e]]; cbn [wp_items]; [|apply frames_err].
    destruct (rbind _ np_iscomplex) as [cp|e]; [|apply frames_err]. hdr pad74.
    apply ends_app, ends_cons, ends_app. destruct (rbind _ _); ends_tac.
  - left. unfold write58. destruct (ix d "func_type"); [|apply frames_err].
    destruct (negb _); [apply frames_err|]. destruct (prepare58_write _ _); [|apply frames_err]. cbn [wp_items].
    hdr (@nil N). destruct (rbind _ _); [|ends_tac]. apply ends_cons, ends_app.
    destruct (payload58 _ _ _ _); ends_tac.
  - left. unfold write82. cbv zeta. cbn [wp_items]. destruct (ix _ "nodes") as [v|e]; [|apply frames_err].
    destruct v as [| | | | | | |dt ns| |]; try apply frames_err. destruct dt; try apply frames_err; hdr pad74; ends_tac.
  - left. unfold write151. cbv zeta. cbn [wp_items]. hdr pad74. ends_tac.
  - left. unfold write164. cbv zeta. cbn [wp_items]. hdr pad74. ends_tac.
  - left. unfold write1858. cbn [wp_items]. hdr pad74. ends_tac.
  - left. unfold write2400. cbv zeta. cbn [wp_items]. hdr pad74. ends_tac.
  - left. unfold write2411. cbn [wp_items]. hdr pad74. destruct (rbind _ _); ends_tac.
  - left. unfold write2412. cbn [wp_items]. hdr pad74. ends_tac.
  - unfold write2414. cbv zeta. cbn [wp_items]. unfold body2414.
    destruct (ix (opt_fields d defaults2414) "analysis_type") as [a|e] eqn:Ea.
    2:{ left. cbn [app]. hdr [LF]. ends_tac. }
    destruct (py_eqZ a 5) eqn:Ea5.
    { left. cbn [app]. hdr [LF]. ends_tac. }
    destruct (ix (opt_fields d defaults2414) "dataset_location") as [l|e] eqn:El.
    2:{ left. cbn [app]. hdr [LF]. ends_tac. }
    destruct (py_eqZ l 1); [left; cbn [app]; hdr [LF]; ends_tac|].
    destruct (py_eqZ l 2); [left; cbn [app]; hdr [LF]; ends_tac|].
    destruct (py_eqZ l 3); [left; cbn [app]; hdr [LF]; ends_tac|].
    destruct (py_eqZ l 5) eqn:El5; [|left; cbn [app]; hdr [LF]; ends_tac].
    right. split; [reflexivity|]. split; [exists a, l; auto|]. right. exists [LF]. eexists.
    cbn [app]. apply (f_equal2 (@cons item)); [vm_compute; reflexivity|symmetry; apply app_nil_r].
  - left. unfold write2420. cbv zeta. cbn [wp_items]. hdr pad74. apply ends_cons, ends_cons. destruct (check2420 _); ends_tac.
  - left. unfold write2429. cbv zeta. cbn [wp_items]. hdr [LF]. ends_tac.
  - left. unfold write2467. cbv zeta. cbn [wp_items]. hdr [LF]. destruct (rbind _ _); ends_tac.
Qed.

(** The bytes of steps that all succeed. *)
Lemma run_app : forall a b f x, run_items f (a ++ b) = (x, None) ->
  exists y, run_items f a = (y, None) /\ run_items y b = (x, None).
Proof.
  induction a as [|i a IH]; intros b f x H; [exists f; auto|]. cbn [app run_items] in *.
  destruct i as [[s|e]|r|]; [destruct (utf8_encode s); [auto|discriminate]|discriminate|auto|auto].
Qed.
Lemma run_keeps : forall l f x, Forall no_trunc l -> run_items f l = (x, None) -> exists y, x = f ++ y.
Proof.
  intros l f x Hn H. rewrite run_items_append in H by assumption. injection H as <- _. eauto.
Qed.

Lemma frames_run : forall p cl l f x, frames p cl l -> Forall no_trunc l -> Forall (fun c => (c < 128)%N) p -> run_items f l = (x, None) ->
  exists rest, x = f ++ TLINE ++ p ++ rest /\ (cl = true -> exists body, p ++ rest = body ++ TLINE /\ exists r, body = p ++ r).
Proof.
  intros p cl l f x [Hf|(r & mid & ->)] Hn Hp H; [exfalso; eapply fails_run; eauto|].
  cbn [run_items] in H. unfold utf8_encode in H. destruct (utf8_enc (TLINE ++ p ++ r)) as [b|] eqn:Eb; [|discriminate].
  rewrite !utf8_enc_app, TLINE_enc in Eb. rewrite (utf8_enc_ascii p Hp) in Eb. destruct (utf8_enc r) as [br|]; [|discriminate].
  assert (Eb' : b = TLINE ++ p ++ br) by congruence. subst b. cbn [of_option] in H.
  apply run_app in H as (y & H1 & H2). inversion Hn as [|? ? _ Hn']; subst. apply Forall_app in Hn' as [Hm _].
  destruct (run_keeps _ _ _ Hm H1) as [q ->]. destruct cl.
  - assert (E : forall y, run_items y [end_line] = (y ++ TLINE, None)) by reflexivity.
    rewrite E in H2. assert (Ex : x = ((f ++ TLINE ++ p ++ br) ++ q) ++ TLINE) by congruence. subst x. exists (br ++ q ++ TLINE). rewrite <- !app_assoc. split; [reflexivity|]. intros _.
    exists (p ++ br ++ q). rewrite <- !app_assoc. eauto.
  - assert (Ex : x = (f ++ TLINE ++ p ++ br) ++ q) by (cbn [run_items] in H2; congruence). subst x. exists (br ++ q). rewrite <- !app_assoc. split; [reflexivity|discriminate].
Qed.

Lemma six_ascii : forall z, Forall (fun c => (c < 128)%N) (six z).
Proof.
  intro z. assert (H := plain_rjust 6 (dec_Z z) (plain_dec z)). unfold six.
  assert (Ha : forallb numch (dec_Z z) = true) by apply dec_Z_numch. clear H. unfold rjust. apply Forall_app. split.
  - apply Forall_forall. intros c Hc. apply repeat_spec in Hc. subst. reflexivity.
  - apply Forall_forall. intros c Hc. rewrite forallb_forall in Ha. specialize (Ha c Hc). unfold numch, is_digit in Ha.
    apply orb_true_iff in Ha as [Ha|Ha]; [apply andb_true_iff in Ha as [_ Ha]; apply N.leb_le in Ha; lia|].
    apply N.eqb_eq in Ha. subst. reflexivity.
Qed.

Lemma unclosed_data : forall d v, unclosed2414 (dput d (KS "data") v) -> unclosed2414 d.
Proof.
  intros d v (a & l & Ha & Ha5 & Hl & Hl5).
  assert (E : forall k, key_eqb (KS k) (KS "data") = false ->
            ix (opt_fields (dput d (KS "data") v) defaults2414) k = ix (opt_fields d defaults2414) k).
  { intros k Hk. unfold ix. rewrite !opt_fields_get, dget_dput, Hk. reflexivity. }
  rewrite E in Ha by reflexivity. rewrite E in Hl by reflexivity. exists a, l. auto.
Qed.

(** What a successful call for one set leaves in the file. *)
Lemma write_one : forall c m fd d z file u b u',
  known z -> dget d (KS "type") = Some (VInt z) -> Forall no_trunc (set_items c m fd d) ->
  write_sets c file u [d] (mode_name m) fd = (Some b, u', None) ->
  (exists rest, b = kept m file ++ TLINE ++ six z ++ rest /\
     ((exists body, six z ++ rest = body ++ TLINE /\ exists r, body = six z ++ r) \/ (z = 2414%Z /\ unclosed2414 d))) /\
  (extents b <> [] -> u' = view b).
Proof.
  intros c m fd d z file u b u' Hz Ht Hn H. unfold write_sets in H. rewrite parse_mode_name in H. cbn [write_list] in H.
  unfold write_set in H. cbv zeta in H. unfold set_items in Hn. rewrite Ht in H, Hn.
  match type of Hn with context [match ?r with Ok _ => _ | Err _ => _ end] => destruct r as [d1|ex] eqn:Ed end; [|discriminate H].
  assert (Hd1 : unclosed2414 d1 -> unclosed2414 d).
  { clear -Ed. destruct (dget d (KS "data")) as [v|]; [|injection Ed as ->; auto].
    destruct (np_nan_to_num v) as [v'|e]; cbn [rbind] in Ed; [injection Ed as <-|discriminate Ed]. apply unclosed_data. }
  match type of H with context [run_items ?s _] => change s with (kept m file) in H end.
  destruct (run_items (kept m file) _) as [b1 [e|]] eqn:Er; [discriminate H|].
  rewrite refresh_some in H. cbn [w_exc w_file w_uff] in H. injection H as <- <-.
  split; [|intro He; destruct (extents b1); [congruence|reflexivity]].
  assert (Hty : py_eqZ (VInt z) z = true) by (cbn; apply Z.eqb_refl).
  assert (Hto : forall y, y <> z -> py_eqZ (VInt z) y = false) by (intros y Hy; cbn; apply Z.eqb_neq; congruence).
  destruct (write_frames c m fd (VInt z) z d1 Hz Hty Hto) as [Hf|(-> & Hu & Hf)];
    destruct (frames_run _ _ _ _ _ Hf Hn (six_ascii _) Er) as (rest & Hb & Hc); exists rest; (split; [assumption|]).
  - left. auto.
  - right. split; [reflexivity|]. exact (Hd1 Hu).
Qed.

(* ------------------------------------------------------------------ *)
(** ** Where the delimiters are *)

(** The text between the two lines. *)
Definition inner (body : bytes) : list nat := filter (fun i => tag_head (skipn i (body ++ TLINE))) (seq 0 (length body)).
Lemma inner_In : forall body i, In i (inner body) <-> i < length body /\ delim_at (body ++ TLINE) i.
Proof.
  intros body i. unfold inner. rewrite filter_In, in_seq, tag_head_spec. split; intros [H1 H2]; (split; [lia|assumption]).
Qed.
Lemma inner_nil : forall body, inner body = [] <-> (forall i, i < length body -> ~ delim_at (body ++ TLINE) i).
Proof.
  intro body. split.
  - intros H i Hi Hd. assert (Hin : In i (inner body)) by (apply inner_In; auto). rewrite H in Hin. destruct Hin.
  - intro H. destruct (inner body) as [|i l] eqn:E; [reflexivity|].
    assert (Hin : In i (inner body)) by (rewrite E; left; reflexivity). apply inner_In in Hin as [H1 H2]. exfalso. eapply H; eauto.
Qed.
Lemma tags_frame : forall body, tags (TLINE ++ body ++ TLINE) = 0 :: map (Nat.add 7) (inner body ++ [length body]).
Proof.
  intro body. rewrite tags_app_closed by (right; exists TAG, LF; auto). change (tags TLINE) with [0]. cbn [app]. f_equal.
  change (length TLINE) with 7. rewrite tags_app. change (tags TLINE) with [0]. cbn [map]. rewrite Nat.add_0_r. reflexivity.
Qed.
Lemma extents_frame : forall old body, appendable old ->
  extents (old ++ TLINE ++ body ++ TLINE)
  = extents old ++ map (fun p => (length old + fst p, length old + snd p)) (pairs (0 :: map (Nat.add 7) (inner body ++ [length body]))).
Proof.
  intros old body Ha. apply appendable_even in Ha as [Hc He]. rewrite extents_app by assumption. unfold extents at 2. rewrite tags_frame. reflexivity.
Qed.

(** The type line survives any cut. *)
Lemma six_no_delim : forall z r i, known z -> i < 6 -> ~ delim_at (six z ++ r) i.
Proof.
  intros z r i Hz Hi [H _]. revert H.
  repeat (destruct Hz as [<-|Hz];
    [do 6 (destruct i as [|i]; [destruct r as [|? [|? [|? [|? [|? r]]]]]; vm_compute; congruence|]); lia|]).
  destruct Hz.
Qed.
Lemma first_line_six : forall p r, no_lb is_lb_bytes p = true -> firstn (length p) (first_line (p ++ r)) = p.
Proof.
  induction p as [|c p IH]; intros r H; [reflexivity|]. cbn [no_lb forallb] in H. apply andb_true_iff in H as [H1 H2].
  apply negb_true_iff in H1. cbn [app first_line]. rewrite H1. cbn [length firstn]. rewrite IH by assumption. reflexivity.
Qed.
Lemma type_six : forall z r, known z -> type_in (six z ++ r) = z.
Proof.
  intros z r Hz. unfold type_in.
  repeat (destruct Hz as [<-|Hz]; [match goal with |- context [six ?y] => assert (E := first_line_six (six y) r eq_refl);
    change (length (six y)) with 6 in E; rewrite E; reflexivity end|]). destruct Hz.
Qed.

Lemma inner_sorted : forall body i l, inner body = i :: l -> forall j, j < i -> ~ delim_at (body ++ TLINE) j.
Proof.
  intros body i l E j Hj Hd.
  assert (Hi : In i (inner body)) by (rewrite E; left; reflexivity). apply inner_In in Hi as [Hi _].
  assert (Hin : In j (inner body)) by (apply inner_In; split; [lia|assumption]).
  unfold inner in E, Hin. clear Hd Hi.
  assert (G : forall n s, filter (fun i => tag_head (skipn i (body ++ TLINE))) (seq s n) = i :: l ->
     In j (filter (fun i => tag_head (skipn i (body ++ TLINE))) (seq s n)) -> False).
  { induction n as [|n IH]; intros s E1 E2; [discriminate|]. cbn [seq filter] in *.
    destruct (tag_head (skipn s (body ++ TLINE))); [|eauto]. injection E1 as -> E1. destruct E2 as [E2|E2]; [lia|].
    apply filter_In in E2 as [E2 _]. apply in_seq in E2. lia. }
  eapply G; eauto.
Qed.

(** For every dictionary of a known type that is accepted: the call extends the
    file by an opening line, a text beginning with the type, and a closing line
    (type 2414 at location 5: no closing line).  The type of the next set is always
    found.  The next set is the whole block, and nothing follows it, exactly if
    the text contains no delimiter; otherwise the set ends at the first one. *)
Theorem C13_exact : forall c m fd d z file u b u',
  known z -> dget d (KS "type") = Some (VInt z) -> Forall no_trunc (set_items c m fd d) -> appendable (kept m file) ->
  write_sets c file u [d] (mode_name m) fd = (Some b, u', None) ->
  (z = 2414%Z /\ unclosed2414 d) \/
  exists body u0, b = kept m file ++ TLINE ++ body ++ TLINE /\ uff_new (Some (kept m file)) = Ok u0 /\
    firstn 6 body = six z /\
    nth_error (set_types u') (n_sets u0) = Some z /\
    (block_ind u' = block_ind u0 ++ [(length (kept m file), length (kept m file) + 7 + length body)]
     <-> forall i, i < length body -> ~ delim_at (body ++ TLINE) i) /\
    (forall i, i < length body -> delim_at (body ++ TLINE) i -> (forall j, j < i -> ~ delim_at (body ++ TLINE) j) ->
       nth_error (block_ind u') (n_sets u0) = Some (length (kept m file), length (kept m file) + 7 + i) /\ n_sets u0 < n_sets u').
Proof.
  intros c m fd d z file u b u' Hz Ht Hn Ha Hw.
  destruct (write_one c m fd d z file u b u' Hz Ht Hn Hw) as [(rest & Hb & [(body & Er & r & Ebody)|Hu]) Hv]; [|left; assumption].
  right. exists body, (view (kept m file)).
  assert (Hb' : b = kept m file ++ TLINE ++ body ++ TLINE) by (rewrite Hb, Er; reflexivity).
  split; [assumption|]. split; [apply uff_new_view|].
  split. { rewrite Ebody. repeat (destruct Hz as [<-|Hz]; [reflexivity|]). destruct Hz. }
  assert (Hx := extents_frame (kept m file) body Ha). rewrite <- Hb' in Hx.
  assert (Hu' : u' = view b). { apply Hv. rewrite Hx. intro E. apply app_eq_nil in E as [_ E]. apply map_eq_nil in E.
    destruct (inner body); discriminate. }
  set (old := kept m file) in *. subst u'. cbn [view block_ind n_sets].
  assert (Hn0 : n_sets (view old) = length (extents old)) by reflexivity.
  destruct (inner body) as [|i0 l] eqn:Ei.
  - assert (Hno : forall i, i < length body -> ~ delim_at (body ++ TLINE) i) by (apply inner_nil; assumption).
    cbn [app map pairs fst snd] in Hx. rewrite Nat.add_0_r in Hx.
    assert (Hx' : extents b = extents old ++ [(length old, length old + 7 + length body)]) by (rewrite <- Nat.add_assoc; exact Hx).
    split.
    { cbn [view set_types]. rewrite Hx'. rewrite map_app, nth_error_app2; rewrite map_length; [|lia]. rewrite Nat.sub_diag. cbn [map nth_error]. f_equal.
      rewrite Hb'. unfold extract_block. cbn [fst snd].
      replace (old ++ TLINE ++ body ++ TLINE) with (old ++ (TLINE ++ body) ++ TLINE) by (rewrite <- !app_assoc; reflexivity).
      rewrite <- Nat.add_assoc. change 7 with (length TLINE). rewrite <- app_length. rewrite slice_app_mid.
      rewrite block_type_open by (left; reflexivity). rewrite Ebody. apply type_six. assumption. }
    split; [split; [intros _; assumption|intros _; exact Hx']|]. intros i Hi Hd. exfalso. eapply Hno; eauto.
  - assert (Hi0 : i0 < length body /\ delim_at (body ++ TLINE) i0) by (apply inner_In; rewrite Ei; left; reflexivity).
    destruct Hi0 as [Hi0 Hd0].
    cbn [app map pairs fst snd] in Hx. rewrite Nat.add_0_r in Hx.
    assert (H6 : 6 <= i0).
    { destruct (Nat.le_gt_cases 6 i0) as [L|L]; [assumption|]. exfalso. rewrite Ebody, <- app_assoc in Hd0.
      exact (six_no_delim z _ i0 Hz L Hd0). }
    split.
    { cbn [view set_types]. rewrite Hx. rewrite map_app, nth_error_app2; rewrite map_length; [|lia]. rewrite Nat.sub_diag. cbn [map nth_error]. f_equal.
      rewrite Hb'. unfold extract_block. cbn [fst snd].
      rewrite <- (firstn_skipn i0 body) at 1.
      replace (old ++ TLINE ++ (firstn i0 body ++ skipn i0 body) ++ TLINE)
        with (old ++ (TLINE ++ firstn i0 body) ++ (skipn i0 body ++ TLINE)) by (rewrite <- !app_assoc; reflexivity).
      assert (El : 7 + i0 = length (TLINE ++ firstn i0 body)) by (rewrite app_length, firstn_length_le by lia; reflexivity).
      rewrite El, slice_app_mid. rewrite block_type_open by (left; reflexivity). rewrite Ebody.
      rewrite firstn_app. assert (E6 : length (six z) = 6) by (repeat (destruct Hz as [<-|Hz]; [reflexivity|]); destruct Hz).
      rewrite firstn_all2 by (unfold str in *; lia). apply type_six. assumption. }
    split.
    { split.
      - intro E. exfalso. cbn [view block_ind] in E. rewrite Hx in E. apply app_inv_head in E. injection E as E _. lia.
      - intro H. exfalso. eapply H; eauto. }
    intros i Hi Hd Hlt. assert (i = i0).
    { destruct (Nat.lt_trichotomy i i0) as [L|[L|L]]; [|assumption|].
      - exfalso. eapply inner_sorted; eauto.
      - exfalso. eapply Hlt; eauto. }
    subst i0. cbn [view block_ind]. rewrite Hx. rewrite nth_error_app2 by lia. rewrite Nat.sub_diag. cbn [nth_error].
    split; [f_equal; f_equal; lia|]. rewrite app_length. cbn [length]. lia.
Qed.
Print Assumptions C13_exact.

(* ------------------------------------------------------------------ *)
(** ** The values that imitate a delimiter *)

(** A text in which a line ends in "    -1". *)
Definition imitates (s : str) : Prop := exists p q, s = p ++ TAG ++ LF :: q.

Lemma run_txt : forall f s l x, run_items f (WTxt (Ok s) :: l) = (x, None) ->
  exists bs, utf8_enc s = Some bs /\ run_items (f ++ bs) l = (x, None).
Proof.
  intros f s l x H. cbn [run_items] in H. unfold utf8_encode in H. destruct (utf8_enc s) as [bs|]; [|discriminate].
  exists bs. auto.
Qed.

Lemma set_frames : forall c m fd d z, known z -> dget d (KS "type") = Some (VInt z) -> ~ (z = 2414%Z /\ unclosed2414 d) ->
  set_items c m fd d = [] \/ frames (six z) true (set_items c m fd d).
Proof.
  intros c m fd d z Hz Ht Hnu. unfold set_items. rewrite Ht.
  match goal with |- context [match ?r with Ok _ => _ | Err _ => _ end] => destruct r as [d1|ex] eqn:Ed end; [|auto].
  assert (Hd1 : unclosed2414 d1 -> unclosed2414 d).
  { clear -Ed. destruct (dget d (KS "data")) as [v|]; [|injection Ed as ->; auto].
    destruct (np_nan_to_num v) as [v'|e]; cbn [rbind] in Ed; [injection Ed as <-|discriminate Ed]. apply unclosed_data. }
  right. assert (Hty : py_eqZ (VInt z) z = true) by (cbn; apply Z.eqb_refl).
  assert (Hto : forall y, y <> z -> py_eqZ (VInt z) y = false) by (intros y Hy; cbn; apply Z.eqb_neq; congruence).
  destruct (write_frames c m fd (VInt z) z d1 Hz Hty Hto) as [Hf|(-> & Hu & _)]; [assumption|]. exfalso. auto.
Qed.

(** The steps of an accepted set run. *)
Lemma accepted_run : forall c m fd d z file u b u', dget d (KS "type") = Some (VInt z) ->
  write_sets c file u [d] (mode_name m) fd = (Some b, u', None) -> set_items c m fd d <> [] ->
  run_items (kept m file) (set_items c m fd d) = (b, None).
Proof.
  intros c m fd d z file u b u' Ht H Hne. unfold write_sets in H. rewrite parse_mode_name in H. cbn [write_list] in H.
  unfold write_set in H. cbv zeta in H. unfold set_items in *. rewrite Ht in *.
  match type of Hne with context [match ?r with Ok _ => _ | Err _ => _ end] => destruct r as [d1|ex] end; [|congruence].
  match type of H with context [run_items ?s _] => change s with (kept m file) in H end.
  destruct (run_items (kept m file) _) as [b1 [e|]]; [discriminate H|].
  rewrite refresh_some in H. cbn [w_exc w_file w_uff] in H. injection H as <- _. reflexivity.
Qed.

(** If one of the steps between the first and the last writes such a text, the
    block is cut: the next set ends before the closing line. *)
Theorem C13_imitation : forall c m fd d z file u b u' pre s post,
  known z -> dget d (KS "type") = Some (VInt z) -> Forall no_trunc (set_items c m fd d) -> appendable (kept m file) ->
  set_items c m fd d = pre ++ WTxt (Ok s) :: post -> pre <> [] -> post <> [] -> imitates s ->
  ~ (z = 2414%Z /\ unclosed2414 d) ->
  write_sets c file u [d] (mode_name m) fd = (Some b, u', None) ->
  exists u0 e, uff_new (Some (kept m file)) = Ok u0 /\
    nth_error (block_ind u') (n_sets u0) = Some (length (kept m file), e) /\ e + 7 < length b.
Proof.
  intros c m fd d z file u b u' pre s post Hz Ht Hn Ha Hi Hpre Hpost (p & q & Es) Hnu Hw.
  destruct (C13_exact c m fd d z file u b u' Hz Ht Hn Ha Hw) as [Hc|(body & u0 & Hb & Hu0 & H6 & _ & _ & Hcut)]; [contradiction|].
  assert (Hne : set_items c m fd d <> []) by (rewrite Hi; destruct pre; discriminate).
  assert (Hr := accepted_run _ _ _ _ _ _ _ _ _ Ht Hw Hne).
  destruct (set_frames c m fd d z Hz Ht Hnu) as [Hf|[Hf|(r & mid & Ef)]]; [contradiction|exfalso; eapply fails_run; eauto|].
  destruct pre as [|i0 pre]; [congruence|]. destruct (exists_last Hpost) as (post' & il & ->).
  assert (Ei : i0 = WTxt (Ok (TLINE ++ six z ++ r)) /\ il = end_line).
  { rewrite Hi in Ef. cbn [app] in Ef. injection Ef as -> Ef. split; [reflexivity|].
    change (pre ++ WTxt (Ok s) :: post' ++ [il]) with (pre ++ (WTxt (Ok s) :: post') ++ [il]) in Ef. rewrite app_assoc in Ef.
    apply app_inj_tail in Ef as [_ Ef]. assumption. }
  destruct Ei as [-> ->].
  rewrite Hi in Hr, Hn. inversion Hn as [|? ? _ Hn']; subst. apply Forall_app in Hn' as [Hnp Hn'].
  inversion Hn' as [|? ? _ Hnq]; subst. apply Forall_app in Hnq as [Hnq _].
  apply run_txt in Hr as (bh & Ebh & Hr). change ((fix app (l m : list item) {struct l} := match l with [] => m | a :: l1 => a :: app l1 m end)) with (@app item) in Hr.
  apply run_app in Hr as (y & Hr1 & Hr2). destruct (run_keeps _ _ _ Hnp Hr1) as [y1 ->].
  apply run_txt in Hr2 as (bs & Ebs & Hr3).
  apply run_app in Hr3 as (y & Hr3 & Hr4). destruct (run_keeps _ _ _ Hnq Hr3) as [y2 ->].
  assert (Ebh' : exists bt, bh = TLINE ++ bt).
  { rewrite utf8_enc_app, TLINE_enc in Ebh. destruct (utf8_enc (six z ++ r)) as [bt|]; [|discriminate]. exists bt. congruence. }
  destruct Ebh' as [bt ->].
  assert (Ebs' : exists bp bq, bs = bp ++ TLINE ++ bq).
  { change (TAG ++ LF :: q) with (TLINE ++ q) in Ebs. rewrite !utf8_enc_app, TLINE_enc in Ebs.
    destruct (utf8_enc p) as [bp|]; [|discriminate]. destruct (utf8_enc q) as [bq|]; [|discriminate]. exists bp, bq. congruence. }
  destruct Ebs' as (bp & bq & ->).
  assert (E : forall y, run_items y [end_line] = (y ++ TLINE, None)) by reflexivity. rewrite E in Hr4.
  assert (Hbody : body = (bt ++ y1 ++ bp) ++ TLINE ++ (bq ++ y2)).
  { apply (f_equal fst) in Hr4. cbn [fst] in Hr4. rewrite <- !app_assoc in Hr4. apply app_inv_head in Hr4. apply app_inv_head in Hr4.
    rewrite !app_assoc in Hr4. apply app_inv_tail in Hr4. rewrite <- Hr4. rewrite <- !app_assoc. reflexivity. }
  set (k := length (bt ++ y1 ++ bp)) in *.
  assert (Hk : k < length body /\ delim_at (body ++ TLINE) k).
  { split; [rewrite Hbody, app_length, (app_length TLINE); change (length TLINE) with 7; fold k; lia|]. apply tag_head_spec. rewrite Hbody, <- app_assoc.
    rewrite skipn_app_exact by reflexivity. reflexivity. }
  destruct Hk as [Hk Hd].
  assert (Hin : In k (inner body)) by (apply inner_In; auto).
  destruct (inner body) as [|i l] eqn:Ein; [destruct Hin|].
  assert (Hi0 : In i (inner body)) by (rewrite Ein; left; reflexivity). apply inner_In in Hi0 as [Hi1 Hi2].
  exists u0, (length (kept m file) + 7 + i). split; [assumption|].
  split; [apply Hcut; auto; eapply inner_sorted; eauto|]. rewrite !app_length. change (length TLINE) with 7. lia.
Qed.
Print Assumptions C13_imitation.

(* ------------------------------------------------------------------ *)
(** ** A set of every type but 15 that is not found again *)

Definition m1 : pyval := VInt (-1).
(** Sets of the round-trip theorems with one entry replaced: an integer -1 in the
    last column of a line or, for 58 and 1858, a text. *)
Definition imitators : list (Z * dict) := Eval vm_compute in
  [ (18%Z, put d18 "method" (VList [m1; VInt 1]));
    (55%Z, put d55_normal "mode_n" m1);
    (58%Z, put d58_even "id3" (VStr (lit "    -1")));
    (82%Z, put d82 "color" m1);
    (151%Z, put d151 "file_type" m1);
    (164%Z, put d164 "temp_mode" m1);
    (1858%Z, put d1858 "reference_direction" (VStr (lit "  -1")));
    (2400%Z, put d2400 "version_number" m1);
    (2411%Z, put d2411 "color" (VList [VInt 1; m1; VInt 2]));
    (2412%Z, [(KS "type", VInt 2412); (KI 44, VList [elem_dict 1 44 4 [1; 2; 3; -1]%Z []])]);
    (2414%Z, put d2414_nodes "node_nums" (VArr DInt [m1; VInt 2]));
    (2420%Z, put d2420 "Part_UID" m1);
    (2429%Z, d2429 [(8, -1)]%Z);
    (2467%Z, [(KS "type", VInt 2467); (KS "groups", VList [gd2467 1 "first" [(8, 1, 0, -1)%Z]])]) ].
(** Every type but 15 has an accepted set that does not come back: in a new file
    its block is cut, and the set written behind it by the same call (a sound one)
    is not found: a set of unknown type is in its place. *)
Definition damaged (z : Z) (d : dict) : bool :=
  match dget d (KS "type"), write_sets noclock None uff0 [d] (lit "add") true, write_sets noclock None uff0 [d; d82] (lit "add") true with
  | Some (VInt ty), (Some f, u, None), (Some f2, u2, None) =>
      (ty =? z)%Z && match block_ind u with [(O, e)] => Nat.ltb (e + 7) (length f) | _ => false end
      && match set_types u2 with [z'; 0%Z] => (z' =? z)%Z | _ => false end
  | _, _, _ => false
  end.
Lemma damaged_spec : forall z d, damaged z d = true ->
  dget d (KS "type") = Some (VInt z) /\
  (exists f u e, write_sets noclock None uff0 [d] (lit "add") true = (Some f, u, None) /\ block_ind u = [(0, e)] /\ e + 7 < length f) /\
  (exists f u, write_sets noclock None uff0 [d; d82] (lit "add") true = (Some f, u, None) /\ set_types u = [z; 0%Z]).
Proof.
  intros z d H. unfold damaged in H. destruct (dget d (KS "type")) as [[| |ty| | | | | | |]|]; try discriminate H.
  destruct (write_sets noclock None uff0 [d] (lit "add") true) as [[[f|] u] [e|]]; try discriminate H.
  destruct (write_sets noclock None uff0 [d; d82] (lit "add") true) as [[[f2|] u2] [e|]]; try discriminate H.
  apply andb_true_iff in H as [H H3]. apply andb_true_iff in H as [H1 H2]. apply Z.eqb_eq in H1. subst ty.
  destruct (block_ind u) as [|[[|x] e] [|? ?]] eqn:Eb; try discriminate H2. apply Nat.ltb_lt in H2.
  destruct (set_types u2) as [|z' [|[| |] [|? ?]]] eqn:Et; try discriminate H3. apply Z.eqb_eq in H3. subst z'.
  split; [reflexivity|]. split; [exists f, u, e; auto|exists f2, u2; auto].
Qed.
Theorem C13_refuted : forall z, known z -> z <> 15%Z -> exists d, dget d (KS "type") = Some (VInt z) /\
  (exists f u e, write_sets noclock None uff0 [d] (lit "add") true = (Some f, u, None) /\ block_ind u = [(0, e)] /\ e + 7 < length f) /\
  (exists f u, write_sets noclock None uff0 [d; d82] (lit "add") true = (Some f, u, None) /\ set_types u = [z; 0%Z]).
Proof.
  intros z Hz H15.
  assert (H : existsb (fun p => Z.eqb z (fst p) && damaged z (snd p)) imitators = true).
  { destruct Hz as [<-|Hz]; [congruence|]. clear H15. repeat (destruct Hz as [<-|Hz]; [vm_compute; reflexivity|]). destruct Hz. }
  apply existsb_exists in H as ([z' d] & _ & H). cbn [fst snd] in H. apply andb_true_iff in H as [_ H]. exists d. apply damaged_spec. assumption.
Qed.
Print Assumptions C13_refuted.

(** Eight of them cannot be read at all. *)
Theorem C13_unreadable_refuted : forall z, In z [55; 58; 82; 151; 164; 2400; 2414; 2420]%Z -> exists d f u,
  dget d (KS "type") = Some (VInt z) /\ write_sets noclock None uff0 [d] (lit "add") true = (Some f, u, None) /\
  read_sets (Some f) u SelAll false = Err (PyException "Error when reading data-set(s).").
Proof.
  intros z Hz.
  assert (H : exists d, nth_error (map snd (filter (fun p => Z.eqb z (fst p)) imitators)) 0 = Some d /\
     exists f u, dget d (KS "type") = Some (VInt z) /\ write_sets noclock None uff0 [d] (lit "add") true = (Some f, u, None) /\
     read_sets (Some f) u SelAll false = Err (PyException "Error when reading data-set(s).")).
  { repeat (destruct Hz as [<-|Hz];
      [eexists; split; [vm_compute; reflexivity|]; eexists; eexists; split; [vm_compute; reflexivity|]; split; [vm_compute; reflexivity|]; vm_compute; reflexivity|]).
    destruct Hz. }
  destruct H as (d & _ & f & u & H). eauto.
Qed.
Print Assumptions C13_unreadable_refuted.

(* ------------------------------------------------------------------ *)
(** ** Sets that are found again *)

(** One more set, of the given type, and all earlier sets where they were. *)
Definition found (c : clock) (m : wmode) (fd : bool) (d : dict) (z : Z) : Prop :=
  forall file u, appendable (kept m file) -> exists b u0 u',
    uff_new (Some (kept m file)) = Ok u0 /\
    write_sets c file u [d] (mode_name m) fd = (Some b, u', None) /\
    set_types u' = set_types u0 ++ [z] /\ exists e, block_ind u' = block_ind u0 ++ [(length (kept m file), e)] /\ delim_line (skipn e b).

Lemma stored_found : forall c m fd d b, stored c m fd d b -> found c m fd d (type_in (b_body b)).
Proof.
  intros c m fd d b Hs file u Ha. destruct (stored_write c m fd d b file u Hs Ha) as [d' Hw]. destruct Hs as [Hf _].
  exists (kept m file ++ block_bytes b), (view (kept m file)), (view (kept m file ++ block_bytes b)).
  split; [apply uff_new_view|]. split. { unfold write_sets. rewrite parse_mode_name. cbn [write_list]. rewrite Hw. reflexivity. }
  assert (Hx := extents_block _ _ Ha Hf). split.
  - cbn [view set_types]. rewrite Hx, map_app. f_equal.
    + apply map_ext_in. intros [s e] Hin. f_equal. apply extract_block_app. cbn [snd]. eapply extents_bound; eauto.
    + cbn [map]. rewrite extract_last. rewrite block_type_open by apply Hf. reflexivity.
  - exists (length (kept m file) + (length (b_open b) + length (b_body b))). cbn [view block_ind]. split; [exact Hx|].
    unfold block_bytes. rewrite !app_assoc. rewrite skipn_app_exact by (rewrite !app_length; lia). apply Hf.
Qed.

(** 74 blanks do not occur in numbers set in narrow columns, whatever their length. *)
Lemma gap_wide : forall segs, Forall (fun s => exists k core, s = repeat blank k ++ core /\ k <= 70 /\ nonws core) segs ->
  containsb (repeat blank 74) (concat segs) = false.
Proof.
  intros segs H. destruct (containsb (repeat blank 74) (concat segs)) eqn:E; [|reflexivity]. exfalso.
  apply containsb_iff in E as (a & b & E). revert a E. induction H as [|s segs (k & core & Es & Hk & Hc) _ IH]; intros a E.
  - apply (f_equal (@length N)) in E. rewrite !app_length, repeat_length in E. cbn in E. lia.
  - cbn [concat] in E. destruct (Nat.le_gt_cases (length s) (length a)) as [L|L].
    + apply (IH (skipn (length s) a)). apply (f_equal (skipn (length s))) in E. rewrite skipn_app_exact in E by reflexivity.
      rewrite E. rewrite skipn_lt_app by assumption. reflexivity.
    + assert (Hlen : length s = k + length core) by (rewrite Es, app_length, repeat_length; reflexivity).
      assert (Hp : exists j, length a <= j < length a + 74 /\ k <= j < length s).
      { exists (Nat.max (length a) k). assert (1 <= length core). { destruct core; [destruct Hc; congruence|cbn; lia]. } lia. }
      destruct Hp as (j & J1 & J2).
      assert (N1 : nth_error (s ++ concat segs) j = Some blank).
      { rewrite E. rewrite nth_error_app2 by lia. rewrite nth_error_app1 by (rewrite repeat_length; lia).
        apply nth_error_repeat. lia. }
      rewrite nth_error_app1 in N1 by lia. rewrite Es in N1. rewrite nth_error_app2 in N1 by (rewrite repeat_length; lia).
      apply nth_error_In in N1. apply (nonws_chars core Hc) in N1. discriminate.
Qed.
Lemma rne_nonneg : forall n d, (0 < n)%Z -> (0 < d)%Z -> (0 <= rne n d)%Z.
Proof.
  intros n d Hn Hd. unfold rne. assert (0 <= n / d)%Z by (apply Z.div_pos; lia).
  repeat match goal with |- context [if ?b then _ else _] => destruct b | |- context [match ?x with Eq => _ | Lt => _ | Gt => _ end] => destruct x end; lia.
Qed.
Lemma fmt_f0_fltch : forall f, forallb fltch (fmt_f0 f) = true /\ fmt_f0 f <> [].
Proof.
  intro f. destruct f as [s|s| |s m e]; [destruct s; split; [reflexivity|discriminate|reflexivity|discriminate]
    |destruct s; split; [reflexivity|discriminate|reflexivity|discriminate]|split; [reflexivity|discriminate]|].
  cbn [fmt_f0]. destruct (frac_of m e) as [n d] eqn:E. destruct (frac_of_spec _ _ _ _ E) as (Hn & Hd & _).
  assert (Hr : (0 <= rne n d)%Z) by (apply rne_nonneg; lia). split.
  - rewrite forallb_app. apply andb_true_iff. split; [destruct s; reflexivity|]. eapply forallb_impl; [apply digit_fltch|]. apply dec_nat_digits. assumption.
  - intro E'. apply app_eq_nil in E' as [_ E']. revert E'. apply dec_nat_nonnil. assumption.
Qed.
Lemma fltch_nonnil : forall s, forallb fltch s = true -> s <> [] -> nonws s /\ plain s.
Proof.
  intros s H Hne. split; [split; [assumption|]; eapply forallb_impl; [apply fltch_nonws|assumption]|].
  apply plain_ascii. eapply forallb_impl; [|exact H]. intros c Hc. unfold fltch in Hc.
  apply orb_true_iff in Hc as [Hc|Hc]; [apply digit_ascii; assumption|].
  cbn [existsb] in Hc. rewrite ?orb_true_iff, ?N.eqb_eq in Hc.
  repeat (destruct Hc as [Hc|Hc]; [subst; reflexivity|]). discriminate.
Qed.

Lemma rseq_len : forall A (l : list (result A)) vs, rseq l = Ok vs -> length vs = length l.
Proof.
  intros A l. induction l as [|r l IH]; intros vs H; [injection H as <-; reflexivity|]. cbn [rseq] in H.
  destruct r as [a|]; [|discriminate]. cbn [rbind] in H. destruct (rseq l) as [ws|]; [|discriminate]. cbn [rbind] in H. injection H as <-.
  cbn [length]. rewrite (IH ws) by reflexivity. reflexivity.
Qed.
(** A record of numbers closed by one in exponential form is never a delimiter. *)
Definition fstr_width (f : ffmt) : nat := match f with F0 w => w | FE w _ => w end.
Lemma fstr_seg : forall f v s, fstr f v = Ok s -> fstr_width f <= 70 -> plain s /\ exists k core, s = repeat blank k ++ core /\ k <= 70 /\ nonws core.
Proof.
  intros f v s H Hw. unfold fstr in H. destruct (fstr_arg v) as [x|]; [|discriminate]. cbn [rbind] in H. injection H as <-.
  destruct f as [w|w p]; cbn [fstr_width] in Hw.
  - destruct (fmt_f0_fltch x) as [H1 H2]. destruct (fltch_nonnil _ H1 H2) as [N P]. split; [apply plain_rjust; assumption|].
    unfold rjust. eexists. eexists. split; [reflexivity|]. split; [lia|assumption].
  - split; [apply plain_rjust, plain_fmt|]. unfold rjust. eexists. eexists. split; [reflexivity|]. split; [lia|apply fmt_e_nonws].
Qed.
Lemma record_line : forall vals fmts w p s, write_record vals (fmts ++ [FE w p]) false = Ok s -> Forall (fun f => fstr_width f <= 70) (fmts ++ [FE w p]) ->
  6 <= w -> length vals = length (fmts ++ [FE w p]) -> exists l, s = l ++ [LF] /\ okline l.
Proof.
  intros vals fmts w p s H Hf Hw Hl. unfold write_record in H. destruct (rseq vals) as [vs|] eqn:Ev; [|discriminate]. cbn [rbind] in H.
  destruct (rseq (map (fun '(v, f) => fstr f v) (combine vs (fmts ++ [FE w p])))) as [parts|] eqn:Ep; [|discriminate].
  cbn [rbind] in H. assert (E : s = concat parts ++ [LF]) by congruence. clear H. exists (concat parts). split; [assumption|].
  assert (Hlv : length vs = length (fmts ++ [FE w p])) by (rewrite <- Hl; eapply rseq_len; eauto).
  assert (G : forall fs vs parts, rseq (map (fun '(v, f) => fstr f v) (combine vs fs)) = Ok parts -> length vs = length fs ->
    Forall (fun f => fstr_width f <= 70) fs ->
    Forall (fun s => plain s /\ exists k core, s = repeat blank k ++ core /\ k <= 70 /\ nonws core) parts /\ length parts = length fs /\
    (forall q w p, fs = q ++ [FE w p] -> exists ps x, parts = ps ++ [rjust w (fmt_e true p x)])).
  { clear. induction fs as [|f fs IH]; intros [|v vs] parts H Hl HF; try discriminate Hl.
    - cbn in H. injection H as <-. split; [constructor|]. split; [reflexivity|]. intros [|? q] w p E; discriminate.
    - cbn [combine map rseq] in H. destruct (fstr f v) as [s|] eqn:Es; [|discriminate]. cbn [rbind] in H.
      destruct (rseq (map _ (combine vs fs))) as [ps|] eqn:Ep; [|discriminate]. cbn [rbind] in H. injection H as <-.
      inversion HF; subst. destruct (IH vs ps Ep) as (A & B & C); [cbn in Hl; lia|assumption|].
      split; [constructor; [eapply fstr_seg; eauto|assumption]|]. split; [cbn; lia|].
      intros [|f0 q] w p E; cbn [app] in E; injection E as -> E.
      + subst fs. destruct ps; [|discriminate B]. unfold fstr in Es. destruct (fstr_arg v) as [x|]; [|discriminate]. cbn [rbind] in Es.
        injection Es as <-. exists [], x. reflexivity.
      + destruct (C q w p E) as (ps' & x & ->). exists (s :: ps'), x. reflexivity. }
  destruct (G _ _ _ Ep Hlv Hf) as (A & _ & C). destruct (C fmts w p eq_refl) as (ps & x & ->).
  assert (Hp : plain (concat (ps ++ [rjust w (fmt_e true p x)]))) by (apply plain_concat; eapply Forall_impl; [|exact A]; cbv beta; tauto).
  split; [apply Hp|]. split; [|apply Hp]. apply tags_gap.
  - apply no_lb_str_bytes, Hp.
  - rewrite concat_app. cbn [concat]. rewrite app_nil_r. apply ends_tag_flt. assumption.
  - apply gap_wide. eapply Forall_impl; [|exact A]. cbv beta. tauto.
Qed.

(** Steps of which each writes one sound line. *)
Lemma lines_writes : forall l f x, run_items f l = (x, None) ->
  Forall (fun i => exists r, i = WTxt r /\ forall s, r = Ok s -> exists t, s = t ++ [LF] /\ okline t) l ->
  exists ls, writes l (unlines ls) /\ Forall okline ls.
Proof.
  intros l f x H HF. revert f H. induction HF as [|i l (r & -> & Hr) _ IH]; intros f H.
  - exists []. split; [constructor|constructor].
  - destruct r as [s|e]; [|discriminate H]. apply run_txt in H as (bs & _ & H). destruct (IH _ H) as (ls & Hw & Ho).
    destruct (Hr s eq_refl) as (t & -> & Ht). exists (t :: ls). split; [|constructor; assumption].
    rewrite unlines_cons'. constructor. assumption.
Qed.

(** Every set of type 15 that the writer accepts is found again, whatever its
    values. *)
Theorem C13_15 : forall c m fd d file u b u', dget d (KS "type") = Some (VInt 15) ->
  write_sets c file u [d] (mode_name m) fd = (Some b, u', None) -> found c m fd d 15.
Proof.
  intros c m fd d file u b u' Ht Hw.
  assert (Hr : set_items c m fd d <> [] /\ exists d1, set_items c m fd d = wp_items (write15 d1)).
  { unfold set_items. rewrite Ht. unfold write_sets in Hw. rewrite parse_mode_name in Hw. cbn [write_list] in Hw. unfold write_set in Hw. cbv zeta in Hw.
    rewrite Ht in Hw.
    match goal with |- context [match ?r with Ok _ => _ | Err _ => _ end] => destruct r as [d1|ex] end; [|discriminate Hw].
    change (write_dispatch c m fd (VInt 15) d1) with (write15 d1). split; [|eauto]. unfold write15. destruct (rbind _ _); discriminate. }
  destruct Hr as [Hne (d1 & Ei)].
  assert (Hrun := accepted_run _ _ _ _ _ _ _ _ _ Ht Hw Hne). rewrite Ei in Hrun. unfold write15 in Hrun, Ei.
  destruct (do v <- ix d1 "node_nums" ;; py_len v) as [n|e]; [|discriminate Hrun]. cbn [wp_items] in *.
  set (d2 := opt_fields d1 _) in *.
  apply (run_app [_]) in Hrun as (y & _ & Hrun). apply run_app in Hrun as (y2 & Hrun & _).
  destruct (lines_writes _ _ _ Hrun) as (ls & Hls & Hok).
  { rewrite Forall_map. apply Forall_forall. intros i _. unfold rec15. eexists. split; [reflexivity|]. intros s Hs.
    apply (record_line _ [F0 10; F0 10; F0 10; F0 10; FE 13 5; FE 13 5] 13 5) in Hs; [assumption|repeat constructor; cbn; lia|lia|reflexivity]. }
  assert (Hwr : writes (set_items c m fd d) (TLINE ++ unlines (six 15 :: ls) ++ TLINE)).
  { rewrite Ei. eapply writes_eq.
    - eapply (writes_consr _ (TLINE ++ six 15 ++ [LF])); [vm_compute; reflexivity|]. eapply writes_app; [exact Hls|].
      apply (writes_one _ TLINE). vm_compute. reflexivity.
    - rewrite unlines_cons. rewrite <- !app_assoc. reflexivity. }
  destruct (stored_text c m fd d 15 (six 15) ls Hwr) as (blk & Hs & Hty & _).
  { constructor; [|assumption]. apply okline_plain; [apply plain_rjust, plain_dec|apply (ends_tag_int []); [lia|discriminate]|change (length (six 15)) with 6; lia]. }
  { reflexivity. }
  rewrite <- Hty. apply stored_found. assumption.
Qed.
Print Assumptions C13_15.

(** Every set stated by a content of the round-trip theorems is found again, for
    every type. *)
Theorem C13_safe : forall c m fd d x, states c m fd d x -> found c m fd d (type_of x).
Proof. intros c m fd d x H. destruct (states_block c m fd d x H) as (b & Hs & Ht & _). rewrite <- Ht. apply stored_found. assumption. Qed.
Print Assumptions C13_safe.

(** The hypotheses hold: a set of type 15 with a -1 in every integer column, and an
    imitator of [C13_imitation]. *)
Definition d15_minus : dict := Eval vm_compute in
  put (put (put (put d15 "node_nums" (VArr DInt [m1; m1; m1])) "def_cs" (VList [m1; m1; m1])) "disp_cs" (VList [m1; m1; m1])) "color" (VList [m1; m1; VInt (10 ^ 90)]).
Example C13_15_example : dget d15_minus (KS "type") = Some (VInt 15) /\
  exists f u, write_sets noclock None uff0 [d15_minus] (mode_name Add) true = (Some f, u, None) /\ set_types u = [15%Z].
Proof. split; [reflexivity|]. eexists. eexists. split; [vm_compute; reflexivity|]. reflexivity. Qed.
Definition d164_minus : dict := Eval vm_compute in put d164 "temp_mode" m1.
Example C13_imitation_example : exists pre s post f u, set_items noclock Add true d164_minus = pre ++ WTxt (Ok s) :: post /\ pre <> [] /\ post <> [] /\
  imitates s /\ known 164 /\ dget d164_minus (KS "type") = Some (VInt 164) /\ Forall no_trunc (set_items noclock Add true d164_minus) /\
  write_sets noclock None uff0 [d164_minus] (mode_name Add) true = (Some f, u, None).
Proof.
  exists [hdr_lines 164]. eexists. eexists. eexists. eexists. split; [vm_compute; reflexivity|]. split; [discriminate|]. split; [discriminate|].
  split. { exists (rjust 10 (lit "1") ++ rjust 20 (lit "SI units") ++ repeat blank 4), []. vm_compute. reflexivity. }
  split. { unfold known. cbn [In]. auto 20. }
  split; [reflexivity|]. split; [apply set_items_no_trunc|]. vm_compute. reflexivity.
Qed.
