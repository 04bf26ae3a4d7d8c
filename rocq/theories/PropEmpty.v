(** C62, refuted parts in general: an empty last group of type 2429 is lost,
    whatever the groups before it and however the block is laid out; coordinate
    systems (18), data at nodes (55) and functions (58) on padded lines are not
    read, whatever their numbers. *)
From Coq Require Import String List NArith ZArith Bool Lia.
Import ListNotations.
From Verif Require Import PyBase PyNum PyVal Utf8 Tools DsNodes DsHeaders DsGroups Ds55 Ds58 Ds2414 Uff Facts IntFacts FloatFacts DecFacts FloatText FloatExact DictFacts
  Scan Container Append ContainerThms Utf8Facts Lines Stored Cells Rows RtNodes RtCs RtHeads RtElems RtGroups RtNodal RtFun RtFunSet RtAnalysis Witness
  PropNodes PropHeads PropGroups PropNodal PropFun PropAnalysis PropHistory Layout PropLayout Reading ReadNodes ReadSets Read55 Read58 Read2414 PropReading PropPrepare.
From Coq Require Import Lia.
Open Scope string_scope.
Open Scope list_scope.
Open Scope nat_scope.

Lemma loop_lost : forall gs ps (pre tail : list str) acc fuel, Forall (fun g => length (p_sets (fst g)) = 6) gs -> lines_ok ps ->
  Forall2 (line_of false sep_next anyroom) (map fst ps) (doc2429s gs) -> length tail = 2 -> length gs <= fuel ->
  loop2429 fuel (pre ++ map (@fst str str) ps ++ tail) (Z.of_nat (length pre)) acc = Ok (acc ++ map (fun g => VDict (out2429 g)) gs).
Proof.
  induction gs as [|[g es] gs IH]; intros ps pre tail acc fuel Hw Hl H Ht Hf.
  - unfold doc2429s in H. cbn [flat_map] in H. apply line_none in H. subst ps. cbn [map app]. rewrite !app_nil_r.
    destruct fuel; cbn [loop2429]; rewrite app_length, Ht; (rewrite (proj2 (Z.ltb_ge _ _)) by lia); reflexivity.
  - inversion Hw as [|? ? W1 Hws]; subst. cbn [fst snd] in *. destruct fuel as [|fuel]; [cbn in Hf; lia|].
    unfold doc2429s in H. cbn [flat_map fst snd] in H. fold (doc2429s gs) in H. unfold doc2429 in H. fold (ents2 es) in H.
    assert (G : exists qs rs, ps = qs ++ rs /\ lines_ok qs /\ lines_ok rs /\ Forall2 (line_of false sep_next anyroom) (map fst qs) (doc_group g (ents2 es)) /\
      Forall2 (line_of false sep_next anyroom) (map fst rs) (doc2429s gs)).
    { apply Forall2_app_inv_r in H as (l1 & l2 & H1 & H2 & E). apply map_eq_app in E as (qs & rs & -> & <- & <-). exists qs, rs.
      unfold lines_ok in *. apply Forall_app in Hl as [Hl1 Hl2]. auto. }
    destruct G as (qs & rs & -> & Lq & Lr & Hq & Hr). rewrite map_app, <- app_assoc.
    assert (E2 : Forall (fun e => length e = 2) (ents2 es)) by (unfold ents2; rewrite List.Forall_map, Forall_forall; intros e _; reflexivity).
    destruct (group_rd (@fst str str) 4 2 g (ents2 es) pre (map (@fst str str) rs ++ tail) qs tailed_fst ltac:(lia) eq_refl E2 W1 Lq Hq) as ((g1 & G1 & G2) & G3 & G4 & G5 & G6).
    assert (El2 : length (ents2 es) = length es) by apply map_length. rewrite El2 in *.
    set (lines := pre ++ _ ++ _) in *. cbn [loop2429].
    match goal with |- (if ?b then _ else _) = _ => assert (Hlt : b = true) end.
    { apply Z.ltb_lt. apply Forall2_len in Hq. rewrite map_length in Hq. unfold doc_group in Hq. cbn [app length] in Hq. unfold lines. rewrite !app_length, !map_length, Ht. unfold str in *. lia. }
    rewrite Hlt. destruct (py_nth lines (Z.of_nat (length pre))) as [l0|]; [|discriminate]. cbn [rbind] in G1 |- *. rewrite G1. cbn [rbind].
    destruct (py_nth lines (Z.of_nat (length pre) + 1)) as [l1|]; [|discriminate]. cbn [rbind] in G3 |- *. rewrite G3. cbn [rbind].
    rewrite G2. rewrite group_out_count by exact W1. cbn [rbind]. change (Z.of_nat 4) with 4%Z in *. rewrite G4. cbn [rbind]. rewrite G5. rewrite ents2_cells.
    assert (F1 : every 0 2 (flat_map cells2 es) = map fst es) by (apply every_table1; [lia|intro e; split; reflexivity]).
    assert (F2 : every 1 2 (flat_map cells2 es) = map snd es) by (apply every_table1; [lia|intro e; split; reflexivity]).
    rewrite F1, F2.
    replace (Z.of_nat (length pre + length qs)) with (Z.of_nat (length (pre ++ map (@fst str str) qs))) by (rewrite app_length, map_length; reflexivity).
    unfold lines. rewrite app_assoc. rewrite IH.
    + rewrite <- app_assoc. cbn [app map]. do 3 f_equal.
      unfold out2429, group_out. cbn [fst snd].
      destruct (p_sets g) as [|a [|b [|c [|d [|e [|f [|? ?]]]]]]]; try discriminate. reflexivity.
    + assumption.
    + assumption.
    + assumption.
    + assumption.
    + cbn in Hf. lia.
Qed.
Lemma lost2429 : forall l g block ps ho, block_lines block ps -> Forall2 (line_of false sep_next anyroom) (map fst ps) (doc2429s (l ++ [(g, [])])) ->
  Forall (fun g => length (p_sets (fst g)) = 6) l -> extract_set 2429 block ho = Ok (read2429s l).
Proof.
  intros l g block ps ho Hb H Hr.
  assert (G : exists qs rs, ps = qs ++ rs /\ Forall2 (line_of false sep_next anyroom) (map fst qs) (doc2429s l) /\ length (map (@fst str str) rs) = 2).
  { unfold doc2429s in H. rewrite flat_map_app in H. fold (doc2429s l) in H. apply Forall2_app_inv_r in H as (l1 & l2 & H1 & H2 & E). apply map_eq_app in E as (qs & rs & -> & <- & <-).
    exists qs, rs. split; [reflexivity|]. split; [exact H1|]. apply Forall2_len in H2. exact H2. }
  destruct G as (qs & rs & -> & Hq & Ht). open_block Hb. unfold extract2429, extract2429_fuel. rewrite block_drop by assumption. clear Eb. cbv zeta.
  apply lines_tail, lines_tail in Hl. unfold lines_ok in Hl. apply Forall_app in Hl as [Hl _]. rewrite map_app.
  match goal with |- context [loop2429 ?f _ _ _] => assert (L := loop_lost l qs [fst p0; fst p1] (map (@fst str str) rs) [] f Hr Hl Hq Ht) end. cbn [app length] in L |- *. change (Z.of_nat 2) with 2%Z in L.
  match goal with |- context [loop2429 ?f ?x ?z ?y] => match type of L with _ -> loop2429 ?f' ?x' ?z' ?y' = _ => change (loop2429 f x z y) with (loop2429 f' x' z' y') end end.
  rewrite L; [reflexivity|]. apply Forall2_len in Hq. assert (Hd := doc2429s_len l). rewrite map_length in Hq. rewrite !app_length, !map_length. unfold str in *. lia.
Qed.

(** The groups before the last are read, the empty last one is not. *)
Theorem C62_empty_general_refuted : forall l g b ho p1 ps, delim_line (b_open b) -> utf8_decode (b_body b) = text_of (p1 :: ps) -> lines_ok (p1 :: ps) ->
  type_line 2429 (fst p1) = true -> Forall2 (line_of false sep_next anyroom) (map fst ps) (doc2429s (l ++ [(g, [])])) ->
  Forall (fun g => length (p_sets (fst g)) = 6) l ->
  reads b ho (read2429s l) /\ ~ reads b ho (read2429s (l ++ [(g, [])])).
Proof.
  intros l g b ho p1 ps Ho Hd Hl Ht H Hr. assert (R : reads b ho (read2429s l)).
  { inversion Hl as [|? ? [H1 He] Hl']; subst. unfold reads.
    assert (E : type_in (b_body b) = 2429%Z).
    { apply (type_of_line _ _ (fst p1) (snd p1) (text_of ps)); [|assumption|assumption]. rewrite Hd. unfold text_of. cbn [map concat]. apply app_assoc_reverse. }
    rewrite E. destruct (open_text _ Ho) as (p0 & Eo & N0 & E0 & A0). apply (lost2429 l g _ ps ho); [|assumption|assumption].
    exists p0, p1. split; [rewrite ascii_app by assumption; rewrite Hd, Eo; reflexivity|]. constructor; [split; assumption|exact Hl]. }
  split; [exact R|]. unfold reads in *. intro X. rewrite R in X. injection X as X. apply (f_equal (@length pyval)) in X. rewrite !map_length, app_length in X. cbn [length] in X. lia.
Qed.
Print Assumptions C62_empty_general_refuted.
(** A group of two members and an empty one. *)
Definition lost_ex : list (group * list (Z * Z)) := [(g2429, [(8, 1); (7, -1234)]); (g2429, [])]%Z.
Definition lost_text : list (str * str) :=
  map (fun l => (l, [LF])) (rjust 6 (dec_Z 2429) :: map (fun fs => concat (map (draw false) fs)) (doc2429s lost_ex)).
Example C62_empty_example : exists p1 ps, lost_text = p1 :: ps /\ lines_ok (p1 :: ps) /\ utf8_decode (text_of lost_text) = text_of (p1 :: ps) /\ type_line 2429 (fst p1) = true /\
  Forall2 (line_of false sep_next anyroom) (map fst ps) (doc2429s ([(g2429, [(8, 1); (7, -1234)]%Z)] ++ [(g2429, [])])).
Proof.
  do 2 eexists. split; [reflexivity|]. split; [|split; [vm_compute; reflexivity|split; [reflexivity|]]].
  - vm_compute. repeat (apply Forall_cons; [split; [reflexivity|left; reflexivity]|]). apply Forall_nil.
  - apply chk_recs. vm_compute. repeat match goal with |- _ /\ _ => split end; try exact Logic.I; try reflexivity; repeat constructor.
Qed.

(* ------------------------------------------------------------------ *)
(** ** Padded lines of type 18 *)

(** A cell of blanks is no number. *)
Lemma blank_cell : forall w e, py_float (repeat blank w) = Err e -> forall n (s : str) k, k < n -> firstn w (skipn (w * k) s) = repeat blank w ->
  forall v, parse_floats (chop w n s) <> Ok v.
Proof.
  intros w e B n. induction n as [|n IH]; intros s k Hk H v E; [lia|].
  unfold parse_floats, rmap in E. cbn [chop map rseq] in E. destruct k as [|k].
  - rewrite Nat.mul_0_r in H. cbn [skipn] in H. rewrite H, B in E. discriminate.
  - destruct (py_float (firstn w s)) as [x|]; [|discriminate]. cbn [rbind] in E.
    destruct (rseq (map py_float (chop w n (skipn w s)))) as [t|] eqn:R; [|discriminate].
    refine (IH (skipn w s) k _ _ t R); [lia|]. rewrite skipn_skipn_add. replace (w + w * k) with (w * S k) by lia. exact H.
Qed.
Lemma blank13 : exists e, py_float (repeat blank 13) = Err e.
Proof. eexists. vm_compute. reflexivity. Qed.
(** Numbers in columns of [w], then at least [w] blanks. *)
Lemma padded_cells : forall w e fs l t need room v, py_float (repeat blank w) = Err e -> 0 < w -> Forall (fun f => num f = true /\ fwidth f = w) fs ->
  line_of false need room l fs -> w * length fs + w <= length l -> parse_floats (chop w (length (l ++ t) / w) (l ++ t)) <> Ok v.
Proof.
  intros w e fs l t need room v B Hp Hf (cols & k & E & Hc & _) Hw. destruct (cols_width _ _ _ w _ _ Hc Hf) as [W1 W2].
  assert (L : length (concat cols) = w * length fs) by (etransitivity; [apply (concat_length_const _ w cols W1)|]; etransitivity; [apply (f_equal (fun n => n * w) W2)|]; apply Nat.mul_comm).
  assert (Lq : length l = w * length fs + k) by (rewrite E, app_length, L, repeat_length; reflexivity).
  apply (blank_cell w e B _ _ (length fs)).
  - rewrite app_length. apply Nat.div_le_lower_bound; nia.
  - rewrite E, <- app_assoc. rewrite skipn_app. rewrite (skipn_all2 (concat cols)) by lia. cbn [app]. rewrite L, Nat.sub_diag. cbn [skipn].
    replace k with (w + (k - w)) by lia. rewrite repeat_app, <- app_assoc. apply firstn_app_exact. apply repeat_length.
Qed.
(** No block is read whose first line of a third point has thirteen blanks or more
    behind its numbers. *)
Theorem C62_padded_18_refuted : forall c l b ho p1 q0 q1 q2 q3 ps, delim_line (b_open b) ->
  utf8_decode (b_body b) = text_of (p1 :: q0 :: q1 :: q2 :: q3 :: ps) -> lines_ok (p1 :: q0 :: q1 :: q2 :: q3 :: ps) ->
  type_line 18 (fst p1) = true -> Forall2 (line_of false sep_none anyroom) (map fst (q0 :: q1 :: q2 :: q3 :: ps)) (flat_map doc18 (c :: l)) ->
  52 <= length (fst q3) -> forall d, ~ reads b ho d.
Proof.
  intros c l b ho p1 q0 q1 q2 q3 ps Ho Hd Hl Ht H Hw d R. inversion Hl as [|? ? [H1 He] Hl']; subst. unfold reads in R.
  assert (E : type_in (b_body b) = 18%Z).
  { apply (type_of_line _ _ (fst p1) (snd p1) (text_of (q0 :: q1 :: q2 :: q3 :: ps))); [|assumption|assumption]. rewrite Hd. unfold text_of. cbn [map concat]. apply app_assoc_reverse. }
  rewrite E in R. destruct (open_text _ Ho) as (p0 & Eo & N0 & E0 & A0).
  assert (Hb : block_lines (b_open b ++ b_body b) (q0 :: q1 :: q2 :: q3 :: ps)).
  { exists p0, p1. split; [rewrite ascii_app by assumption; rewrite Hd, Eo; reflexivity|]. constructor; [split; assumption|exact Hl]. }
  clear Hd Hl Hl'. destruct Hb as (p0' & p1' & Eb & Hl). unfold extract_set in R. rewrite Eb in R. cbn [Z.eqb Pos.eqb] in R.
  unfold extract18 in R. rewrite block_drop in R by assumption. cbv zeta in R.
  cbn [flat_map doc18 app map] in H. inversion H as [|? ? ? ? _ G0]; subst. inversion G0 as [|? ? ? ? _ G1]; subst. inversion G1 as [|? ? ? ? _ G2]; subst.
  inversion G2 as [|? ? ? ? L3 _]; subst.
  match type of R with try_any (rbind ?e _) _ = _ => destruct e as [r1|[]]; try discriminate R end. cbn [rbind] in R.
  match type of R with try_any (rbind ?e _) _ = _ => destruct e as [r31|[]]; try discriminate R end. cbn [rbind] in R.
  match type of R with try_any (rbind ?e _) _ = _ => destruct e as [o|[]]; try discriminate R end. cbn [rbind] in R.
  match type of R with try_any (rbind ?e _) _ = _ => destruct e as [x|[]]; try discriminate R end. cbn [rbind] in R.
  match type of R with try_any (rbind ?e _) _ = _ => destruct e as [r32|[]] eqn:F; try discriminate R end.
  match type of F with fixed_floats _ (join ?m) = _ => assert (V : exists X, m = fst q3 :: X) by (eexists; reflexivity); destruct V as [X V]; rewrite V in F end.
  unfold fixed_floats in F. revert F. unfold join. cbn [concat]. destruct blank13 as [e B].
  refine (padded_cells 13 e _ _ _ _ _ _ B _ _ L3 _); [lia| |]; destruct (c_xz c) as [[? ?] ?]; [repeat constructor|cbn [pt_list E13s map length]; lia].
Qed.
Print Assumptions C62_padded_18_refuted.
(** A system padded to 80 columns. *)
Example C62_padded_18_example : exists c p1 q0 q1 q2 q3, out_text 80 (X18 [c]) = p1 :: q0 :: q1 :: q2 :: q3 :: [] /\ lines_ok (p1 :: q0 :: q1 :: q2 :: q3 :: []) /\
  type_line 18 (fst p1) = true /\ length (fst q3) = 80 /\ Forall2 (line_of false sep_none anyroom) (map fst (q0 :: q1 :: q2 :: q3 :: [])) (flat_map doc18 [c]).
Proof.
  exists {| c_num := 1; c_type := 0; c_ref := 0; c_color := 8; c_method := 1; c_name := lit "axis one";
    c_o := (fl "0", fl "1", fl "2"); c_x := (fl "1", fl "0", fl "0"); c_xz := (fl "0", fl "1", fl "2") |}. do 5 eexists. split; [vm_compute; reflexivity|].
  split; [repeat (apply Forall_cons; [split; [vm_compute; reflexivity|left; reflexivity]|]); apply Forall_nil|]. split; [vm_compute; reflexivity|]. split; [vm_compute; reflexivity|].
  refine (chk_laid (X18 [_]) _ _). vm_compute. repeat match goal with |- _ /\ _ => split end; try exact Logic.I; try reflexivity; repeat constructor.
Qed.

(* ------------------------------------------------------------------ *)
(** ** Padded lines of type 55 *)

Lemma nth_every : forall A step i start (l : list A), 0 < step -> nth_error (every start step l) i = nth_error l (start + step * i).
Proof.
  intros A step i start l Hs. unfold every. revert i start. induction l as [|x l IH]; intros i start; [destruct i, start; cbn; try reflexivity; destruct (step * _); reflexivity|].
  cbn [every_aux]. destruct start as [|start].
  - destruct i as [|i]; [rewrite Nat.mul_0_r; reflexivity|]. cbn [nth_error]. rewrite IH. replace (0 + step * S i) with (S (pred step + step * i)) by lia. reflexivity.
  - rewrite IH. reflexivity.
Qed.
(** No block is read in which thirteen blanks or more stand behind the values of a
    node, whichever node it is. *)
Theorem C62_padded_55_refuted : forall r b ho p1 ps a w c p, delim_line (b_open b) ->
  utf8_decode (b_body b) = text_of (p1 :: ps) -> lines_ok (p1 :: ps) ->
  type_line 55 (fst p1) = true -> Forall2 (line_of false sep_none anyroom) (map fst ps) (doc55 r) ->
  length (v_ids r) = 5 -> Forall (fun w => 1 <= length (snd w) <= 6) (v_rows r) ->
  v_rows r = a ++ w :: c -> nth_error ps (9 + 2 * length a) = Some p -> 13 * length (snd w) + 13 <= length (fst p) -> forall d, ~ reads b ho d.
Proof.
  intros r b ho p1 ps a w c p Ho Hd Hl Ht H Hid Hfew Hrow Hp Hw d R. inversion Hl as [|? ? [H1 He] Hl']; subst. unfold reads in R.
  assert (E : type_in (b_body b) = 55%Z).
  { apply (type_of_line _ _ (fst p1) (snd p1) (text_of ps)); [|assumption|assumption]. rewrite Hd. unfold text_of. cbn [map concat]. apply app_assoc_reverse. }
  rewrite E in R. destruct (open_text _ Ho) as (p0 & Eo & N0 & E0 & A0).
  assert (Hb : block_lines (b_open b ++ b_body b) ps).
  { exists p0, p1. split; [rewrite ascii_app by assumption; rewrite Hd, Eo; reflexivity|]. constructor; [split; assumption|exact Hl]. }
  clear Hd Hl. destruct Hb as (p0' & p1' & Eb & Hl). unfold extract_set in R. rewrite Eb in R. cbn [Z.eqb Pos.eqb] in R.
  unfold extract55 in R. rewrite block_keep in R by assumption. cbv zeta in R.
  do 2 (match type of R with try_any (rbind ?e _) _ = _ => destruct e as [?|[]]; try discriminate R end; cbn [rbind] in R).
  match type of R with context [skipn 10 ?m] => change (skipn 10 m) with (skipn 8 (@map (str * str) str whole ps)) in R end.
  assert (Es : skipn 8 (@map (str * str) str whole ps) = @map (str * str) str whole (skipn 8 ps)) by apply skipn_map. rewrite Es in R.
  assert (Hl8 : lines_ok (skipn 8 ps)).
  { unfold lines_ok in *. rewrite <- (firstn_skipn 8 ps) in Hl'. apply Forall_app in Hl' as [_ Hl']. exact Hl'. }
  rewrite join_whole, split_lines in R by assumption.
  match type of R with try_any (rbind ?e _) _ = _ => destruct e as [?|[]]; try discriminate R end. cbn [rbind] in R.
  match type of R with try_any (rbind ?e _) _ = _ => destruct e as [vs|[]] eqn:F; try discriminate R end. clear R.
  unfold np_rows in F. match type of F with rbind ?e _ = _ => destruct e as [fs|] eqn:G; [|discriminate F] end. clear F.
  unfold rmap in G. assert (A := proj1 (rseq_ok _ _) (ex_intro _ fs G)). clear G. rewrite !Forall_map, Forall_forall in A.
  specialize (A (fst p ++ snd p)). destruct A as [v A].
  - change (In (fst p ++ snd p) (every 1 2 (map (fun q : str * str => fst q ++ snd q) (skipn 8 ps)))). rewrite every_map. apply (in_map (fun q : str * str => fst q ++ snd q)).
    apply (nth_error_In _ (length a)). rewrite nth_every by lia. rewrite nth_error_skipn. rewrite skipn_skipn_add. exact (eq_trans (eq_sym (nth_error_skipn _ _ _)) Hp).
  - revert A. destruct blank13 as [e B]. refine (padded_cells 13 e (E13s (snd w)) _ _ sep_none anyroom _ B _ _ _ _); [lia| | |].
    + unfold E13s. rewrite Forall_map, Forall_forall. intros f _. split; reflexivity.
    + assert (D : nth_error (doc55 r) (9 + 2 * length a) = Some (E13s (snd w))).
      { unfold doc55. rewrite Hrow. assert (L5 : length (map (fun s => [DT 80 s]) (v_ids r)) = 5) by (rewrite map_length; exact Hid).
        rewrite nth_error_app2 by lia. rewrite L5. change (9 + 2 * length a - 5) with (S (3 + 2 * length a)). cbn [app nth_error].
        assert (Hm : exists f8 f9, doc_modes (v_modes r) = [f8; f9]) by (destruct (v_modes r); cbn; eauto). destruct Hm as (f8 & f9 & Em).
        unfold doc_modes in Em. rewrite Em. cbn [app Nat.add nth_error]. rewrite Hrow in Hfew. clear -Hfew.
        induction a as [|x a IH]; cbn [app flat_map length]; inversion Hfew as [|? ? Hx Hr]; subst; rewrite rows_few by exact Hx; cbn [map app].
        - reflexivity.
        - replace (2 * S (length a)) with (S (S (2 * length a))) by lia. cbn [nth_error]. apply IH. exact Hr. }
      destruct (Forall2_nth _ _ _ _ _ _ _ H D) as (l & Hn & L). rewrite (map_nth_error _ _ _ Hp) in Hn. injection Hn as <-. exact L.
    + unfold E13s. rewrite map_length. exact Hw.
Qed.
Print Assumptions C62_padded_55_refuted.
(** The example data of type 55 padded to 80 columns: its first node. *)
Example C62_padded_55_example : exists w c p1 ps p, v_rows r55_normal = [] ++ w :: c /\ out_text 80 (X55 r55_normal) = p1 :: ps /\ lines_ok (p1 :: ps) /\ type_line 55 (fst p1) = true /\
  Forall2 (line_of false sep_none anyroom) (map fst ps) (doc55 r55_normal) /\ length (v_ids r55_normal) = 5 /\ Forall (fun w => 1 <= length (snd w) <= 6) (v_rows r55_normal) /\
  nth_error ps 9 = Some p /\ 13 * length (snd w) + 13 <= length (fst p).
Proof.
  do 5 eexists. split; [reflexivity|]. split; [vm_compute; reflexivity|].
  split; [repeat (apply Forall_cons; [split; [vm_compute; reflexivity|left; reflexivity]|]); apply Forall_nil|]. split; [vm_compute; reflexivity|].
  split. { refine (chk_laid (X55 r55_normal) _ _). vm_compute. repeat match goal with |- _ /\ _ => split end; try exact Logic.I; try reflexivity; repeat constructor. }
  split; [reflexivity|]. split; [vm_compute; repeat constructor|]. split; [reflexivity|]. apply Nat.leb_le. vm_compute. reflexivity.
Qed.

(* ------------------------------------------------------------------ *)
(** ** Padded lines of type 58 *)

Lemma blank20 : exists e, py_float (repeat blank 20) = Err e.
Proof. eexists. vm_compute. reflexivity. Qed.
Lemma cols_sum : forall dx need first cols fs, columns dx need first cols fs -> forallb num fs = true -> length (concat cols) = list_sum (map fwidth fs).
Proof.
  intros dx need first cols. revert first. induction cols as [|t cols IH]; intros first [|f fs] H Hf; cbn [columns] in H; try contradiction; [reflexivity|].
  destruct H as (H1 & _ & H3). cbn [forallb] in Hf. apply andb_true_iff in Hf as [Hn Hf]. cbn [concat map list_sum fold_right]. rewrite app_length.
  rewrite (IH _ _ H3 Hf). f_equal. destruct f; try discriminate; apply H1.
Qed.
Lemma blank_cell33 : forall n (s : str) k, k < n -> firstn 13 (skipn (33 * k) s) = repeat blank 13 -> forall v, parse_floats (cells33 n s) <> Ok v.
Proof.
  destruct blank13 as [e B]. induction n as [|n IH]; intros s k Hk H v E; [lia|].
  unfold parse_floats, rmap in E. cbn [cells33 map rseq] in E. destruct k as [|k].
  - rewrite Nat.mul_0_r in H. cbn [skipn] in H. rewrite H, B in E. discriminate.
  - destruct (py_float (firstn 13 s)) as [x|]; [|discriminate]. cbn [rbind] in E. destruct (py_float (slice 13 33 s)) as [y|]; [|discriminate]. cbn [rbind] in E.
    destruct (rseq (map py_float (cells33 n (skipn 33 s)))) as [t|] eqn:R; [|discriminate].
    refine (IH (skipn 33 s) k _ _ t R); [lia|]. rewrite skipn_skipn_add. replace (33 + 33 * k) with (33 * S k) by lia. exact H.
Qed.
Lemma padded_cells33 : forall fs l t need room m v, forallb num fs = true -> list_sum (map fwidth fs) = 33 * m ->
  line_of false need room l fs -> 33 * m + 33 <= length l -> parse_floats (cells33 (length (l ++ t) / 33) (l ++ t)) <> Ok v.
Proof.
  intros fs l t need room m v Hf Hs (cols & k & E & Hc & _) Hw. assert (L := cols_sum _ _ _ _ _ Hc Hf). rewrite Hs in L.
  assert (Lq : length l = 33 * m + k) by (rewrite E, app_length, L, repeat_length; reflexivity).
  apply (blank_cell33 _ _ m).
  - rewrite app_length. apply Nat.div_le_lower_bound; lia.
  - rewrite E, <- app_assoc. rewrite skipn_app. rewrite (skipn_all2 (concat cols)) by lia. cbn [app]. rewrite L, Nat.sub_diag. cbn [skipn].
    replace k with (13 + (k - 13)) by lia. rewrite repeat_app, <- app_assoc. apply firstn_app_exact. apply repeat_length.
Qed.
(** A line of values [fs] with [n] characters is too long: double precision and
    even spacing 20 blanks or more, double precision with abscissas 33 or more,
    single precision 13 or more, but not at the last line; lines of one complex
    value and its abscissa may have any length. *)
Definition overhangs (cplx even dbl last : bool) (fs : list field) (n : nat) : Prop :=
  match dbl, even, cplx with
  | true, true, _ => 20 * length fs + 20 <= n
  | true, false, false => 33 * (length fs / 2) + 33 <= n
  | true, false, true => False
  | false, _, _ => last = false /\ 13 * length fs + 13 <= n
  end.
Lemma rmap_none : forall (f : str -> result (list float)) x l, In x l -> (forall v, f x <> Ok v) -> forall vs, rmap f l <> Ok vs.
Proof.
  intros f x l Hi Hn vs E. unfold rmap in E. assert (A := proj1 (rseq_ok _ _) (ex_intro _ vs E)). rewrite Forall_map, Forall_forall in A. destruct (A x Hi) as [v Hv]. exact (Hn v Hv).
Qed.
Lemma pairs33 : forall row, list_sum (map fwidth (flat_map (point_fields false false true) row)) = 33 * length row /\ length (flat_map (point_fields false false true) row) = length row * 2.
Proof.
  induction row as [|p row [IH1 IH2]]; [split; reflexivity|]. cbn [flat_map]. rewrite map_app, list_sum_app, IH1, app_length, IH2. cbn [length]. split; [cbn; lia|cbn; lia].
Qed.
Lemma overhang_none : forall cplx even dbl d pts ps i fs p,
  ix d "ord_data_type" = Ok (VInt (odt_of cplx dbl)) -> ix d "abscissa_spacing" = Ok (even_val even) ->
  Forall2 (line_of false sep_none anyroom) (map fst ps) (doc58_data cplx even dbl pts) -> nth_error (doc58_data cplx even dbl pts) i = Some fs -> nth_error ps i = Some p ->
  overhangs cplx even dbl (S i =? length (doc58_data cplx even dbl pts)) fs (length (fst p)) -> forall vs, ascii_values d (map whole ps) <> Ok vs.
Proof.
  intros cplx even dbl d pts ps i fs p Ho He H Hfs Hp Ho2 vs E. unfold ascii_values in E. rewrite Ho, He in E. cbn [rbind] in E.
  destruct (Forall2_nth _ _ _ _ _ _ _ H Hfs) as (l & Hn & L). rewrite (map_nth_error _ _ _ Hp) in Hn. injection Hn as <-.
  assert (Hlen := Forall2_len _ _ _ _ _ H). rewrite map_length in Hlen.
  rewrite doc58_points in Hfs. assert (Hr : exists row, fs = flat_map (point_fields cplx even dbl) row).
  { apply nth_error_In in Hfs. apply in_map_iff in Hfs as (row & <- & _). eauto. }
  destruct Hr as [row Er].
  assert (Hin : In (whole p) (map whole ps)) by (apply in_map; eapply nth_error_In; exact Hp).
  assert (Hnum : forallb num fs = true) by (rewrite Er; apply flat_num).
  destruct blank13 as [e13 B13]. destruct blank20 as [e20 B20].
  destruct dbl.
  - replace (eq_one_of (VInt (odt_of cplx true)) [2; 5]%Z) with false in E by (destruct cplx; reflexivity).
    replace (eq_one_of (VInt (odt_of cplx true)) [4; 6]%Z) with true in E by (destruct cplx; reflexivity). cbn [andb] in E.
    destruct even.
    + replace (py_eqZ (even_val true) 1) with true in E by reflexivity.
      match type of E with rbind (rmap ?f ?m) _ = _ => destruct (rmap f m) as [q|] eqn:F; [|discriminate E]; revert F; apply (rmap_none f (whole p) m Hin) end.
      intro v. unfold whole. refine (padded_cells 20 e20 fs _ _ _ _ _ B20 _ _ L Ho2); [lia|].
      assert (W := flat_width cplx true true 20 11 row ltac:(destruct cplx; reflexivity)). rewrite <- Er in W. rewrite Forall_forall in *. rewrite forallb_forall in Hnum. intros f Hf. split; auto.
    + destruct cplx; [contradiction|]. replace (py_eqZ (even_val false) 1) with false in E by reflexivity. replace (py_eqZ (even_val false) 0) with true in E by reflexivity.
      cbn [odt_of] in E. change (py_eqZ (VInt 4) 4) with true in E. cbn [andb] in E.
      match type of E with rbind (rmap ?f ?m) _ = _ => destruct (rmap f m) as [q|] eqn:F; [|discriminate E]; revert F; apply (rmap_none f (whole p) m Hin) end.
      intro v. unfold whole. destruct (pairs33 row) as [S1 S2]. rewrite <- Er in S1, S2. refine (padded_cells33 fs _ _ _ _ (length row) _ Hnum S1 L _).
      cbn [overhangs] in Ho2. rewrite S2, Nat.div_mul in Ho2 by lia. exact Ho2.
  - replace (eq_one_of (VInt (odt_of cplx false)) [2; 5]%Z) with true in E by (destruct cplx; reflexivity).
    assert (Ho3 : (S i =? length (doc58_data cplx even false pts)) = false /\ 13 * length fs + 13 <= length (fst p)) by (destruct even, cplx; exact Ho2).
    destruct Ho3 as [Hlast Hw]. apply Nat.eqb_neq in Hlast.
    assert (Hi : i < length ps) by (apply nth_error_Some; congruence).
    match type of E with rbind (rmap ?f ?m) _ = _ => destruct (rmap f m) as [q|] eqn:F; [|discriminate E]; revert F; apply (rmap_none f (whole p) m) end.
    + rewrite map_length. unfold str in *. assert (Hc : i < length ps - 1) by lia. rewrite <- (firstn_skipn (length ps - 1) ps) in Hp.
      rewrite nth_error_app1 in Hp by (rewrite firstn_length; lia). rewrite firstn_map. apply in_map. eapply nth_error_In. exact Hp.
    + intro v. unfold whole. refine (padded_cells 13 e13 fs _ _ _ _ _ B13 _ _ L Hw); [lia|].
      assert (W : Forall (fun f => fwidth f = 13) fs).
      { rewrite Er, Forall_forall. intros f Hf. apply in_flat_map in Hf as (x & _ & Hf). destruct cplx, even; cbn in Hf; intuition (subst; reflexivity). }
      rewrite Forall_forall in *. rewrite forallb_forall in Hnum. intros f Hf. split; auto.
Qed.
(** No such block of values is read, whichever line is too long. *)
Theorem C62_padded_58_refuted : forall r b p1 ps i fs p, delim_line (b_open b) ->
  utf8_decode (b_body b) = text_of (p1 :: ps) -> lines_ok (p1 :: ps) ->
  type_line 58 (fst p1) = true -> unmarked (whole p1) -> Forall2 (line_of false sep_none anyroom) (map fst ps) (doc58 r) -> length (q_ids r) = 5 ->
  nth_error (doc58 r) (11 + i) = Some fs -> nth_error ps (11 + i) = Some p -> overhangs (q_cplx r) (q_even r) (q_dbl r) (12 + i =? length (doc58 r)) fs (length (fst p)) ->
  forall d, ~ reads b false d.
Proof.
  intros r b p1 ps i fs p Ho Hd Hl Ht Hu H Hi Hfs Hp Hov d R. inversion Hl as [|? ? [H1 He] Hl']; subst. unfold reads in R.
  assert (E : type_in (b_body b) = 58%Z).
  { apply (type_of_line _ _ (fst p1) (snd p1) (text_of ps)); [|assumption|assumption]. rewrite Hd. unfold text_of. cbn [map concat]. apply app_assoc_reverse. }
  rewrite E in R. destruct (open_text _ Ho) as (p0 & Eo & N0 & E0 & A0).
  assert (Hdb : utf8_decode (b_open b ++ b_body b) = text_of (p0 :: p1 :: ps)) by (rewrite ascii_app by assumption; rewrite Hd, Eo; reflexivity).
  assert (Hlb : lines_ok (p0 :: p1 :: ps)) by (constructor; [split; assumption|exact Hl]).
  remember (b_open b ++ b_body b) as block eqn:Eblock. clear Eblock Hd Hl. unfold extract_set in R. cbn [Z.eqb Pos.eqb] in R.
  assert (Lh := doc58_head_length r Hi). unfold doc58 in H, Hfs, Hov.
  rewrite nth_error_app2 in Hfs by lia. rewrite app_length, Lh in Hov. rewrite Lh in Hfs. replace (11 + i - 11) with i in Hfs by lia.
  apply Forall2_app_inv_r in H as (l1 & l2 & Hh & H2 & El). destruct (map_eq_app fst ps l1 l2 El) as (ps1 & ps2 & -> & <- & <-). clear El.
  assert (L1 : length ps1 = 11) by (apply Forall2_len in Hh; rewrite map_length, Lh in Hh; exact Hh).
  rewrite nth_error_app2 in Hp by (rewrite L1; lia). rewrite L1 in Hp. replace (11 + i - 11) with i in Hp by lia.
  assert (Hl1 : lines_ok (p0 :: p1 :: ps1)) by (apply (proj1 (proj1 (Forall_app _ (p0 :: p1 :: ps1) ps2) Hlb))).
  assert (Hd' := Hdb). assert (Et : text_of (p0 :: p1 :: ps1 ++ ps2) = text_of (p0 :: p1 :: ps1) ++ text_of ps2) by (unfold text_of; rewrite <- concat_app, <- map_app; reflexivity).
  rewrite Et in Hdb. destruct (cut_lines _ _ _ Hl1 Hdb) as (hb & rest & -> & Eh & Er & G).
  assert (L13 : length (p0 :: p1 :: ps1) = 13) by (cbn [length]; unfold str in *; lia).
  assert (G13 := eq_rect _ (fun n => forall x, join (firstn n (splitlines_bytes true (hb ++ x))) = hb /\ join (skipn n (splitlines_bytes true (hb ++ x))) = x) G 13 L13).
  rewrite (extract_rd58 r hb rest false p0 p1 ps1 false) in R; try assumption.
  2: { clear -Hh Hi. revert Hh. unfold doc58_head. destruct (q_ids r) as [|s1 [|s2 [|s3 [|s4 [|s5 [|]]]]]]; try discriminate. cbn [map app]. intro Hh.
    repeat match goal with X : Forall2 _ _ (_ :: _) |- _ => inversion X; clear X; subst end. match goal with X : Forall2 _ _ [] |- _ => inversion X; subst end.
    repeat (apply Forall2_cons; [match goal with X : line_of _ _ _ ?l ?fs |- line_of _ _ _ ?l ?fs => destruct X as (cols & k & X1 & X2 & _); exists cols, k; split; [exact X1|split; [exact X2|exact Logic.I]] end|]).
    apply Forall2_nil. }
  cbn [header_recs rbind] in R. cbv zeta in R.
  assert (Eb : dupdate [(KS "type", VInt 58); (KS "binary", VInt 0)] (head_out r) = base58 false r).
  { unfold base58, head_out. destruct (q_ids r) as [|s1 [|s2 [|s3 [|s4 [|s5 [|]]]]]]; try discriminate. reflexivity. }
  rewrite Eb in R. rewrite Hd', block_keep in R by assumption. destruct (base_ix false r Hi) as (I1 & I2 & _ & _).
  assert (Esk : skipn 13 (whole p0 :: whole p1 :: @map (str * str) str whole (ps1 ++ ps2)) = @map (str * str) str whole ps2).
  { change (whole p0 :: whole p1 :: @map (str * str) str whole (ps1 ++ ps2)) with (@map (str * str) str whole ((p0 :: p1 :: ps1) ++ ps2)). rewrite map_app.
    apply skipn_app_exact. rewrite map_length. exact L13. }
  match type of R with try_any (rbind ?e _) _ = _ => destruct e as [vs|[]] eqn:F; try discriminate R end.
  assert (F2 : ascii_values (base58 false r) (@map (str * str) str whole ps2) = Ok vs) by (rewrite <- Esk; exact F).
  revert F2. apply (overhang_none (q_cplx r) (q_even r) (q_dbl r) _ (map clean (q_pts r)) ps2 i fs p); try assumption.
Qed.
Print Assumptions C62_padded_58_refuted.
(** Five values in double precision on lines of 80 columns: the second line. *)
Example C62_padded_58_example : exists p1 ps fs p, out_text 80 (X58 false r58_five) = p1 :: ps /\ lines_ok (p1 :: ps) /\ type_line 58 (fst p1) = true /\ unmarked (whole p1) /\
  Forall2 (line_of false sep_none anyroom) (map fst ps) (doc58 r58_five) /\ length (q_ids r58_five) = 5 /\
  nth_error (doc58 r58_five) 12 = Some fs /\ nth_error ps 12 = Some p /\ overhangs false true true (13 =? length (doc58 r58_five)) fs (length (fst p)).
Proof.
  do 4 eexists. split; [vm_compute; reflexivity|].
  split; [repeat (apply Forall_cons; [split; [vm_compute; reflexivity|left; reflexivity]|]); apply Forall_nil|]. split; [vm_compute; reflexivity|]. split; [vm_compute; reflexivity|].
  split. { refine (chk_laid (X58 false r58_five) _ _). vm_compute. repeat match goal with |- _ /\ _ => split end; try exact Logic.I; try reflexivity; repeat constructor. }
  split; [reflexivity|]. split; [vm_compute; reflexivity|]. split; [reflexivity|]. apply Nat.leb_le. vm_compute. reflexivity.
Qed.
