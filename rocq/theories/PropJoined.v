(** C62: integers that fill their columns: every documented layout of two such
    integers side by side is misread by the readers of 15 and 82, which look for
    blanks between the numbers. *)
From Coq Require Import String List NArith ZArith Bool Lia.
Import ListNotations.
From Verif Require Import PyBase PyNum PyVal Utf8 Tools DsNodes DsHeaders DsGroups Ds55 Ds58 Ds2414 Uff Facts IntFacts FloatFacts DecFacts FloatText FloatExact DictFacts
  Scan Container Append ContainerThms Utf8Facts Lines Stored Cells Rows RtNodes RtCs RtHeads RtElems RtGroups RtNodal RtFun RtFunSet RtAnalysis Witness
  PropNodes PropHeads PropGroups PropNodal PropFun PropAnalysis PropHistory Layout PropLayout Reading ReadNodes ReadSets Read55 Read58 Read2414 PropReading PropLong.
From Coq Require Import Lia.
Open Scope string_scope.
Open Scope list_scope.
Open Scope nat_scope.

(** An integer as wide as its columns, and two of them side by side. *)
Definition full (f : field) : Prop := match f with DI w z => length (dec_Z z) = w | _ => False end.
Definition side_by_side (fs : list field) : Prop := exists a f1 f2 b, fs = a ++ f1 :: f2 :: b /\ full f1 /\ full f2.

Lemma full_holds : forall dx t f, holds dx t f -> full f -> nonws t.
Proof.
  intros dx t [w z|w p x|w s|w|w s] H F; try contradiction. cbn in *. destruct H as [Hl (a & b & ->)]. rewrite !app_length, !repeat_length in Hl.
  assert (a = 0) by lia. assert (b = 0) by lia. subst a b. cbn [repeat app]. rewrite app_nil_r. apply dec_Z_nonws.
Qed.
Lemma cols_words : forall dx need cols first fs, columns dx need first cols fs -> forallb num fs = true -> length (split (concat cols)) <= length fs.
Proof.
  intros dx need cols. induction cols as [|t cols IH]; intros first [|f fs] Hc Hn; cbn [columns] in Hc; try contradiction; [cbn; lia|].
  destruct Hc as (H1 & _ & H3). cbn [forallb] in Hn. apply andb_true_iff in Hn as [Hn1 Hn2]. cbn [concat length].
  destruct (holds_tok _ _ _ H1 Hn1) as (s & Es & _). assert (L := split_by_app_le is_ws t (concat cols)). fold split in L. rewrite Es in L. cbn [length] in L.
  specialize (IH false fs H3 Hn2). lia.
Qed.
Lemma line_joined : forall dx need room line fs, line_of dx need room line fs -> forallb num fs = true -> side_by_side fs -> length (split line) < length fs.
Proof.
  intros dx need room line fs (cols & k & -> & Hc & _) Hn (a & f1 & f2 & b & -> & F1 & F2). rewrite split_trail. revert cols Hc. generalize true at 1 as first. revert Hn.
  induction a as [|f a IH]; intros Hn first cols Hc; destruct cols as [|t cols]; cbn [app columns] in Hc; try contradiction; destruct Hc as (H1 & _ & H3);
    cbn [app forallb] in Hn; apply andb_true_iff in Hn as [Hn1 Hn2].
  - destruct cols as [|t2 cols]; cbn [columns] in H3; [contradiction|]. destruct H3 as (H2 & _ & H3). apply andb_true_iff in Hn2 as [_ Hn2].
    assert (G := cols_words _ _ _ _ _ H3 Hn2). destruct (full_holds _ _ _ H1 F1) as [A1 A2]. destruct (full_holds _ _ _ H2 F2) as [B1 B2].
    cbn [concat app length]. rewrite app_assoc. assert (L := split_by_app_le is_ws (t ++ t2) (concat cols)). fold split in L.
    assert (E : split (t ++ t2) = [t ++ t2]).
    { unfold split. rewrite <- (app_nil_r (t ++ t2)) at 1. rewrite split_by_tok; [reflexivity| | |exact Logic.I].
      - intro Q. apply app_eq_nil in Q as [Q _]. auto.
      - rewrite forallb_app, A2, B2. reflexivity. }
    rewrite E in L. cbn [length] in L. lia.
  - cbn [concat app length]. destruct (holds_tok _ _ _ H1 Hn1) as (s & Es & _). assert (L := split_by_app_le is_ws t (concat cols)). fold split in L. rewrite Es in L.
    cbn [length] in L. specialize (IH Hn2 false cols H3). lia.
Qed.
(** Lines put together have no more words. *)
Lemma words_join : forall ls, length (split (concat ls)) <= list_sum (map (fun l => length (split l)) ls).
Proof.
  induction ls as [|l ls IH]; [cbn; lia|]. cbn [concat map list_sum fold_right]. assert (L := split_by_app_le is_ws l (concat ls)). fold split in L.
  change (fold_right Nat.add 0 (map (fun l0 => length (split l0)) ls)) with (list_sum (map (fun l0 => length (split l0)) ls)). lia.
Qed.
Lemma words_sum : forall dx need room ls recs, Forall2 (line_of dx need room) ls recs -> Forall (fun fs => forallb num fs = true) recs ->
  list_sum (map (fun l => length (split l)) ls) <= length (concat recs) /\
  (Exists side_by_side recs -> list_sum (map (fun l => length (split l)) ls) < length (concat recs)).
Proof.
  intros dx need room ls recs H. induction H as [|l fs ls recs Hl _ IH]; intro Hn; [split; [cbn; lia|intro Q; inversion Q]|]. inversion Hn as [|? ? Hn1 Hn2]; subst.
  destruct (IH Hn2) as [I1 I2]. cbn [map concat]. change (list_sum (length (split l) :: map (fun l0 => length (split l0)) ls)) with (length (split l) + list_sum (map (fun l0 => length (split l0)) ls)).
  rewrite app_length. assert (L := line_words _ _ _ _ _ Hl Hn1). split; [lia|]. intro Q. inversion Q as [? ? Q1|? ? Q1]; subst.
  - assert (L1 := line_joined _ _ _ _ _ Hl Hn1 Q1). lia.
  - specialize (I2 Q1). lia.
Qed.
Lemma whole_words : forall ps, lines_ok ps -> length (split (text_of ps)) = list_sum (map (fun l => length (split l)) (map fst ps)).
Proof.
  intros ps H. induction H as [|[l e] ps [_ He] _ IH]; [reflexivity|]. unfold text_of in *. cbn [map concat fst snd]. cbn [snd] in He. destruct (line_end_ws e He) as (He1 & _ & He2).
  rewrite split_end by assumption. rewrite app_length, IH. reflexivity.
Qed.
Lemma rows_upto : forall l, Forall (fun fs => forallb num fs = true) (map I10s (rows_of 8 l)).
Proof. intro l. rewrite Forall_map, Forall_forall. intros r _. apply (I10s_upto (length r)). lia. Qed.

(** 82 *)
Theorem C62_adjacent_82_refuted : forall need room t block ps ho, block_lines block ps ->
  Forall2 (line_of false need room) (map fst ps) (documented (X82 t)) -> Exists side_by_side (skipn 2 (documented (X82 t))) ->
  extract_set 82 block ho <> Ok (reading ho (X82 t)).
Proof.
  intros need room t block ps ho Hb H Hs. cbn [documented reading] in *. open_block Hb. unfold extract82. rewrite block_keep by assumption. clear Eb.
  apply lines_tail, lines_tail in Hl. unfold doc82 in H, Hs. cbn [app skipn] in H, Hs. next p2 H Hl. next p3 H Hl.
  cbn [map ln nth_error of_option rbind skipn]. rewrite join_whole.
  match goal with qs : list (str * str) |- _ => match type of Hl with lines_ok qs => rename qs into rs end end.
  destruct (words_sum _ _ _ _ _ H (rows_upto _)) as [_ W]. specialize (W Hs). rewrite <- whole_words in W by exact Hl.
  assert (C : length (concat (map I10s (rows_of 8 (t_nodes t)))) = length (t_nodes t)).
  { rewrite <- (map_length fval). rewrite I10s_vals by lia. apply map_length. }
  rewrite C in W. clear C H Hs. intro EE. match type of EE with try_any ?x _ = _ => destruct x as [out|ex] eqn:Ex end; [|destruct ex; discriminate EE]. cbn [try_any] in EE. injection EE as EE.
  repeat match type of Ex with (do _ <- ?x ;; _) = Ok _ => destruct x as [?|] eqn:?; [cbn [rbind] in Ex|discriminate Ex] end. injection Ex as Ex.
  match goal with G : parse_floats _ = Ok ?l |- _ => assert (Lv := rmap_length _ _ _ _ _ G); rename l into vs end. rewrite EE in Ex.
  apply (f_equal (fun d => dget d (KS "nodes"))) in Ex. rewrite dget_dput in Ex. cbn [key_eqb String.eqb Ascii.eqb Bool.eqb] in Ex.
  assert (Q : dget (read82 t) (KS "nodes") = Some (vfloats (map float_of_Z (t_nodes t)))) by reflexivity. rewrite Q in Ex. unfold vfloats in Ex. injection Ex as Ex.
  apply (f_equal (@length pyval)) in Ex. rewrite !map_length in Ex.
  apply (Nat.lt_irrefl (length vs)). eapply Nat.le_lt_trans; [apply Nat.eq_le_incl; exact Lv|]. eapply Nat.lt_le_trans; [exact W|]. apply Nat.eq_le_incl. symmetry. exact Ex.
Qed.
Print Assumptions C62_adjacent_82_refuted.

(** 15 *)
Lemma every7 : forall A (l : list A) k, k <= 6 -> 7 * length (every k 7 l) + k <= length l + 6.
Proof.
  intros A l. unfold every. induction l as [|x l IH]; intros k Hk; [cbn; lia|]. destruct k as [|k]; cbn [every_aux length].
  - specialize (IH (pred 7) ltac:(cbn; lia)). cbn [pred] in *. lia.
  - specialize (IH k ltac:(lia)). lia.
Qed.
Theorem C62_adjacent_15_refuted : forall need room l block ps ho, block_lines block ps ->
  Forall2 (line_of false need room) (map fst ps) (documented (X15 l)) -> Exists side_by_side (documented (X15 l)) ->
  extract_set 15 block ho <> Ok (reading ho (X15 l)).
Proof.
  intros need room l block ps ho Hb H Hs. cbn [documented reading] in *. open_block Hb. unfold extract15. rewrite block_drop by assumption. clear Eb. cbn [skipn].
  destruct (words_sum _ _ _ _ _ H) as [_ W]; [apply Forall_flat; intros n _; repeat constructor|]. specialize (W Hs).
  assert (C : length (concat (flat_map doc15 l)) = 7 * length l) by (clear; induction l as [|n l IH]; [reflexivity|]; cbn [flat_map doc15 app concat length]; rewrite IH; lia).
  match goal with |- context [join ?x] => assert (J := words_join x); change (concat x) with (join x) in J end.
  assert (J' : length (split (join (@map (str * str) str (@fst str str) ps))) < 7 * length l) by (rewrite C in W; eapply Nat.le_lt_trans; [exact J|exact W]). clear J W C H Hs.
  intro EE. match type of EE with try_any ?x _ = _ => destruct x as [out|ex] eqn:Ex end; [|destruct ex; discriminate EE]. cbn [try_any] in EE. injection EE as EE.
  cbv zeta in Ex. destruct (parse_floats _) as [vs|] eqn:Ev in Ex; [|discriminate]. assert (Lv := rmap_length _ _ _ _ _ Ev). cbn [rbind] in Ex. injection Ex as Ex. rewrite EE in Ex.
  apply (f_equal (fun d => dget d (KS "z"))) in Ex. cbn [dget key_eqb String.eqb Ascii.eqb Bool.eqb] in Ex.
  assert (Q : dget (read15 l) (KS "z") = Some (vlist_f (map (fun n => rd 5 (n_z n)) l))) by reflexivity. rewrite Q in Ex. unfold vlist_f in Ex. injection Ex as Ex.
  apply (f_equal (@length pyval)) in Ex. rewrite !map_length in Ex. assert (E7 := every7 _ vs 6 ltac:(lia)).
  assert (Lv' : length vs < 7 * length l) by (eapply Nat.le_lt_trans; [apply Nat.eq_le_incl; exact Lv|exact J']).
  assert (Ex' : length (every 6 7 vs) = length l) by exact Ex. lia.
Qed.
Print Assumptions C62_adjacent_15_refuted.

(** A trace line and a node with labels of ten digits. *)
Definition n_wide : node := {| n_num := 1234567890; n_def := 1234567891; n_disp := 1; n_color := 8; n_x := fl "1.5"; n_y := fl "2.5"; n_z := fl "3.5" |}.
Example C62_joined_example :
  (block_lines (drawn_block (X82 t_wide)) (drawn (X82 t_wide)) /\
   Forall2 (line_of false sep_none anyroom) (map fst (drawn (X82 t_wide))) (documented (X82 t_wide)) /\ Exists side_by_side (skipn 2 (documented (X82 t_wide)))) /\
  (block_lines (drawn_block (X15 [n_wide])) (drawn (X15 [n_wide])) /\
   Forall2 (line_of false sep_none anyroom) (map fst (drawn (X15 [n_wide]))) (documented (X15 [n_wide])) /\ Exists side_by_side (documented (X15 [n_wide]))).
Proof.
  split.
  - split; [exists first_line, (type_text (X82 t_wide), [LF]); split; [vm_compute; reflexivity|vm_compute; repeat (apply Forall_cons; [split; [reflexivity|left; reflexivity]|]); apply Forall_nil]|].
    split; [|left; exists [], (DI 10 1234567890), (DI 10 1234567891), []; repeat split]. apply (chk_laid (X82 t_wide)).
    vm_compute; repeat match goal with |- _ /\ _ => split end; try exact Logic.I; try reflexivity; repeat constructor.
  - split; [exists first_line, (type_text (X15 [n_wide]), [LF]); split; [vm_compute; reflexivity|vm_compute; repeat (apply Forall_cons; [split; [reflexivity|left; reflexivity]|]); apply Forall_nil]|].
    split; [|left; exists [], (DI 10 1234567890), (DI 10 1234567891); eexists; repeat split]. apply (chk_laid (X15 [n_wide])).
    vm_compute; repeat match goal with |- _ /\ _ => split end; try exact Logic.I; try reflexivity; repeat constructor.
Qed.
