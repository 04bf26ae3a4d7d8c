(** Values of type 2414 that touch, and sets without rows: the written set
    cannot be read. *)
From Coq Require Import String List NArith ZArith Bool Lia.
Import ListNotations.
From Verif Require Import PyBase PyNum PyVal Utf8 Tools DsNodes DsHeaders DsGroups Ds55 Ds2414 Uff Facts IntFacts FloatFacts DecFacts FloatText FloatExact CplxFacts DictFacts
  Scan Container Append ContainerThms Utf8Facts Lines Stored Cells Rows RtNodes RtCs RtHeads RtElems RtGroups RtNodal RtAnalysis PropNearest PropNumeral PropAnalysis Witness PropNegative.
From Coq Require Import Lia.
Open Scope string_scope.
Open Scope list_scope.
Open Scope nat_scope.

(* ------------------------------------------------------------------ *)
(** ** C45: values that touch, sets without rows *)

Lemma split_starts : forall y a, is_ws y = false -> exists q ts, split (y :: a) = (y :: q) :: ts.
Proof.
  intros y a H. unfold split. cbn [split_by]. rewrite H. destruct a as [|z a]; [eexists [], []; reflexivity|]. destruct (is_ws z); [eexists [], _; reflexivity|].
  destruct (split_by is_ws (z :: a)) as [|t ts]; [eexists [], []; reflexivity|eexists t, ts; reflexivity].
Qed.
Lemma split_touch : forall a c y b, is_ws c = false -> is_ws y = false -> exists p q, In (p ++ c :: y :: q) (split (a ++ c :: y :: b)).
Proof.
  induction a as [|x a IH]; intros c y b Hc Hy.
  - destruct (split_starts y b Hy) as (q & ts & E). exists [], q. cbn [app]. unfold split in *. cbn [split_by] in *. rewrite Hc, Hy in *. rewrite E. left. reflexivity.
  - destruct (IH c y b Hc Hy) as (p & q & Hi). cbn [app]. unfold split in *. change (x :: a ++ c :: y :: b) with (x :: (a ++ c :: y :: b)). set (r := a ++ c :: y :: b) in *.
    assert (Hr : r <> []) by (unfold r; destruct a; discriminate). clearbody r. destruct r as [|z r]; [congruence|]. cbn [split_by]. destruct (is_ws x) eqn:Hx; [exists p, q; exact Hi|].
    cbn [split_by] in Hi. destruct (is_ws z) eqn:Hz; [exists p, q; right; exact Hi|].
    match type of Hi with In _ ?l => destruct l as [|t ts]; [contradiction|] end. destruct Hi as [->|Hi]; [exists (x :: p), q; left; reflexivity|exists p, q; right; exact Hi].
Qed.
Lemma rmap_err : forall A B (f : A -> result B) l e x, (forall y e', f y = Err e' -> e' = e) -> In x l -> f x = Err e -> rmap f l = Err e.
Proof.
  intros A B f l e x Hf. unfold rmap. induction l as [|y l IH]; intros Hi Hx; [contradiction|]. cbn [map rseq]. destruct (f y) as [v|e'] eqn:E; cbn [rbind].
  - destruct Hi as [->|Hi]; [congruence|]. rewrite IH by assumption. reflexivity.
  - f_equal. eapply Hf. exact E.
Qed.
Lemma py_float_errs : forall s e, py_float s = Err e -> e = ValueError.
Proof. intros s e H. unfold py_float in H. destruct (float_core (strip_num s)); cbn in H; congruence. Qed.
Lemma floats_touch : forall a c b, is_ws c = false -> (c <> 101 /\ c <> 69)%N -> parse_floats (split (a ++ c :: 45%N :: b)) = Err ValueError.
Proof.
  intros a c b Hc He. destruct (split_touch a c 45%N b Hc eq_refl) as (p & q & Hi). unfold parse_floats. eapply rmap_err; [exact py_float_errs|exact Hi|]. apply py_float_minus; assumption.
Qed.
Lemma float_row_errs : forall s e, float_row s = Err e -> e = ValueError.
Proof.
  intros s e H. unfold float_row, parse_floats, rmap in H. destruct (rseq (map py_float (split s))) as [v|e'] eqn:E; cbn [rbind] in H; [discriminate|]. injection H as ->.
  revert e E. induction (split s) as [|t ts IH]; intros e E; cbn [map rseq] in E; [discriminate|]. destruct (py_float t) eqn:Et; cbn [rbind] in E.
  - destruct (rseq (map py_float ts)) eqn:Er; cbn [rbind] in E; [discriminate|]. injection E as ->. apply IH. reflexivity.
  - injection E as ->. eapply py_float_errs. exact Et.
Qed.
(** The last character of a printed real. *)
Lemma printed_last : forall g, f_valid g = true -> exists p c, printed g = p ++ [c] /\ is_ws c = false /\ (c <> 101 /\ c <> 69)%N.
Proof.
  intros g Hv. destruct (f_finite g) eqn:Hf.
  - destruct (fmt5_shape g Hv Hf) as (c & ds & sg & es & E & _ & _ & _ & Hes & He). destruct (exists_last (l := es)) as (es' & x & ->); [intros ->; cbn in He; lia|].
    exists (sign_text (fsign g) ++ c :: 46%N :: ds ++ 101%N :: sg :: es'), x. split; [unfold printed; rewrite E, <- app_assoc; cbn [app]; rewrite <- app_assoc; reflexivity|].
    apply Forall_app in Hes as [_ Hx]. inversion Hx as [|? ? Hd _]; subst. cbn beta in Hd. split; [|lia]. unfold is_ws. 
    destruct (fmt_e_nonws false 5 g) as [_ W]. rewrite E in W. rewrite forallb_forall in W. apply negb_true_iff. apply (W x).
    apply in_or_app. right. right. right. apply in_or_app. right. right. right. apply in_or_app. right. left. reflexivity.
  - destruct g as [s|s| |s m e]; try discriminate Hf; [destruct s|]; unfold printed; cbn [fmt_e sign_text].
    + exists (lit "-in"), 102%N. split; [reflexivity|]. split; [reflexivity|lia].
    + exists (lit "in"), 102%N. split; [reflexivity|]. split; [reflexivity|lia].
    + exists (lit "na"), 110%N. split; [reflexivity|]. split; [reflexivity|lia].
Qed.
(** A value of 13 characters after another value. *)
Definition touching (l : list float) : Prop := exists l1 g f l2, l = l1 ++ g :: f :: l2 /\ length (printed f) = 13.
Lemma touch_shape : forall (A B p r t : str) c y, A ++ (B ++ p ++ [c]) ++ (y :: r) ++ t = (A ++ B ++ p) ++ c :: y :: r ++ t.
Proof. intros. rewrite <- !app_assoc. reflexivity. Qed.
Lemma row_touch : forall l, Forall okf l -> touching l -> exists a c b, cells_text (fcells l) = a ++ c :: 45%N :: b /\ is_ws c = false /\ (c <> 101 /\ c <> 69)%N.
Proof.
  intros l H (l1 & g & f & l2 & -> & Hl). rewrite Forall_app in H. destruct H as [_ H]. inversion H as [|? ? Hg H']; subst. inversion H' as [|? ? Hf _]; subst.
  assert (Ff : f_finite f = true) by (destruct f as [s|s| |s m e]; try reflexivity; [destruct s|]; discriminate Hl).
  destruct (printed_len f Hf Ff) as (_ & _ & Hs). specialize (Hs Hl). destruct (fmt5_shape f Hf Ff) as (c0 & ds & sg & es & E & _). rewrite Hs in E. cbn [sign_text app] in E.
  destruct (printed_last g Hg) as (p & c & Eg & Wc & Hc). unfold printed in *.
  unfold fcells. rewrite map_app, cells_text_app. cbn [map]. rewrite !cells_text_cons. cbn [cell_text]. unfold rjust. rewrite Eg, Hl. change (13 - 13) with 0. cbn [repeat app]. rewrite E.
  eexists _, c, _. split; [|split; [exact Wc|exact Hc]]. apply touch_shape.
Qed.
Lemma line_touch : forall l ls, In l ls -> forall a c b, l = a ++ c :: 45%N :: b -> exists a' b', unlines ls = a' ++ c :: 45%N :: b'.
Proof.
  intros l ls Hi a c b ->. apply in_split in Hi as (l1 & l2 & ->). rewrite unlines_app. rewrite unlines_cons. exists (unlines l1 ++ a), (b ++ LF :: unlines l2).
  rewrite <- !app_assoc. cbn [app]. reflexivity.
Qed.
Lemma recs_an : forall a recs, length (n_ids a) = 5 -> recs = recs2414_5 \/ recs = recs2414_n ->
  ((exists d', header_recs (HL a) (pre2414 a) recs = Ok d' /\ ix d' "dataset_location" = Ok (VInt (n_loc a)) /\ ix d' "data_type" = Ok (VInt (n_dt a)) /\
     ix d' "number_of_data_values_for_the_data_component" = Ok (VInt (n_nv a)))
   \/ header_recs (HL a) (pre2414 a) recs = Err ValueError).
Proof.
  intros a recs Hl Hr. destruct (HL_lines a Hl) as (L & _).
  assert (Hk : Forall rec_ok recs) by (destruct Hr as [-> | ->]; [exact recs5_ok|exact recsn_ok]).
  assert (Hi : Forall (fun r => h_line r < length (HL a)) recs) by (rewrite L; destruct Hr as [-> | ->]; repeat (constructor; [cbn; lia|]); constructor).
  destruct (recs_cases (HL a) recs (pre2414 a)) as [[d' E]|E]; [rewrite Forall_forall in *; intros r Hin; split; auto| |right; exact E].
  left. exists d'. split; [exact E|].
  assert (X : forall k v, ix (pre2414 a) k = Ok v -> ~ In k (flat_map h_names recs) -> ix d' k = Ok v) by (intros k v Hx Hn; unfold ix in *; rewrite (recs_keep _ _ _ _ Hk E) by exact Hn; exact Hx).
  assert (N : forall k, In k ["dataset_location"; "data_type"; "number_of_data_values_for_the_data_component"] -> ~ In k (flat_map h_names recs)).
  { intros k Hin Q. destruct Hr as [-> | ->]; cbn in Hin, Q; destruct Hin as [<-|[<-|[<-|[]]]]; repeat (destruct Q as [Q|Q]; [discriminate Q|]); contradiction. }
  assert (P : ix (pre2414 a) "dataset_location" = Ok (VInt (n_loc a)) /\ ix (pre2414 a) "data_type" = Ok (VInt (n_dt a)) /\
    ix (pre2414 a) "number_of_data_values_for_the_data_component" = Ok (VInt (n_nv a))).
  { unfold pre2414. destruct (n_ids a) as [|i1 [|i2 [|i3 [|i4 [|i5 [|? ?]]]]]]; try discriminate Hl. repeat split; reflexivity. }
  destruct P as (P1 & P2 & P3). repeat split; apply X; try assumption; apply N; cbn; auto.
Qed.

(** Rows of values at nodes, at elements, or of a frequency response. *)
Definition value_rows (b : ana_body) : list (list float) :=
  match b with AFreq rows | ANodes rows | AElems rows => map snd rows | _ => [] end.
(** A value of 13 characters (negative, exponent of three digits) touches the
    value before it: the written set cannot be read. *)
Theorem C45_touch_refuted : forall c m fd ho d a l, repr2414 d a -> wfw2414 a -> In l (value_rows (n_body a)) -> touching l ->
  (is_freq (n_body a) = true -> n_dt a = 5%Z) -> unreadable c m fd ho d.
Proof.
  intros c m fd ho d a l R W Hl Ht Hdt. destruct (lens d a R) as (_ & _ & _ & _ & L5). eapply (unread_w c m fd ho d a ValueError); [assumption|assumption| |exact ordinary_value].
  assert (K : kind_ok a) by apply W. assert (Wb : wfw_body (n_nv a) (n_body a)) by apply W. unfold kind_ok in K. unfold after_head.
  assert (Hv : Forall okf l).
  { destruct (n_body a); cbn [value_rows wfw_body] in *; try contradiction; apply in_map_iff in Hl as (w & <- & Hw); try destruct Wb as [_ Wb]; rewrite Forall_forall in Wb; apply (Wb w Hw). }
  destruct (row_touch l Hv Ht) as (p & x & q & E & Wx & Hx).
  assert (Hrow : float_row (cells_text (fcells l)) = Err ValueError) by (unfold float_row; rewrite E, floats_touch by assumption; reflexivity).
  destruct (n_body a) as [rows|rows|rows|els|] eqn:Eb; cbn [value_rows is_freq] in *; try contradiction; apply in_map_iff in Hl as (w & <- & Hw).
  - rewrite K. cbn [Z.eqb Pos.eqb]. destruct (recs_an a recs2414_5 L5 (or_introl eq_refl)) as [(d' & -> & _ & X2 & X3)| ->]; [|reflexivity]. cbn [rbind].
    unfold freq_data. rewrite X2, X3. cbn [rbind py_eqZ]. rewrite (Hdt eq_refl). cbn [Z.eqb Pos.eqb].
    destruct (line_touch (cells_text (fcells (snd w))) (body_lines (AFreq rows))) with (a := p) (c := x) (b := q) as (p' & q' & ->); [|exact E|rewrite floats_touch by assumption; reflexivity].
    cbn [body_lines]. apply in_flat_map. exists w. split; [exact Hw|]. right. left. reflexivity.
  - destruct K as [K1 K2]. rewrite (proj2 (Z.eqb_neq _ _) K1). destruct (recs_an a recs2414_n L5 (or_intror eq_refl)) as [(d' & -> & X1 & _)| ->]; [|reflexivity]. cbn [rbind].
    unfold loc_data. rewrite X1, K2. cbn [rbind py_eqZ Z.eqb Pos.eqb body_lines].
    rewrite (every_table1 _ _ _ 1 2 (fun w => cells_text (fcells (snd w)))) by (lia || (intro; split; reflexivity)).
    rewrite (rmap_err _ _ float_row _ ValueError (cells_text (fcells (snd w))) float_row_errs); [reflexivity| |exact Hrow]. apply (in_map (fun w => cells_text (fcells (snd w)))). exact Hw.
  - destruct K as [K1 K2]. rewrite (proj2 (Z.eqb_neq _ _) K1). destruct (recs_an a recs2414_n L5 (or_intror eq_refl)) as [(d' & -> & X1 & _)| ->]; [|reflexivity]. cbn [rbind].
    unfold loc_data. rewrite X1, K2. cbn [rbind py_eqZ Z.eqb Pos.eqb body_lines].
    rewrite (every_table1 _ _ _ 1 2 (fun w => cells_text (fcells (snd w)))) by (lia || (intro; split; reflexivity)).
    rewrite (rmap_err _ _ float_row _ ValueError (cells_text (fcells (snd w))) float_row_errs); [reflexivity| |exact Hrow]. apply (in_map (fun w => cells_text (fcells (snd w)))). exact Hw.
Qed.
Print Assumptions C45_touch_refuted.

(** Without nodes, or without elements, the written set cannot be read. *)
Theorem C45_none_refuted : forall c m fd ho d a, repr2414 d a -> wfw2414 a -> n_body a = ANodes [] \/ n_body a = AElems [] -> unreadable c m fd ho d.
Proof.
  intros c m fd ho d a R W Hb. destruct (lens d a R) as (_ & _ & _ & _ & L5).
  assert (K : kind_ok a) by apply W. unfold kind_ok in K.
  destruct (recs_an a recs2414_n L5 (or_intror eq_refl)) as [(d' & E & X1 & _)|E].
  - eapply (unread_w c m fd ho d a IndexError); [assumption|assumption| |split; discriminate]. unfold after_head.
    destruct Hb as [Hb|Hb]; rewrite Hb in *; destruct K as [K1 K2]; rewrite (proj2 (Z.eqb_neq _ _) K1), E; cbn [rbind]; unfold loc_data; rewrite X1, K2; reflexivity.
  - eapply (unread_w c m fd ho d a ValueError); [assumption|assumption| |exact ordinary_value]. unfold after_head.
    destruct Hb as [Hb|Hb]; rewrite Hb in K; destruct K as [K1 K2]; rewrite (proj2 (Z.eqb_neq _ _) K1), E; reflexivity.
Qed.
Print Assumptions C45_none_refuted.
(** Examples: the sets of [C45_wide_refuted] and [C45_empty_refuted]. *)
Definition a2414_wide : ana := Eval vm_compute in
  a2414 2 1 2 3 [0; 0; 0; 0; 0; 0; 0; 0]%Z [0; 0; 0; 0; 0; 0; 0; 0]%Z zeros6 zeros6
   (AElems [(1, [fl "-1.5"; fl "-2e-100"]); (22, [fl "1"; fl "2"])]%Z).
Example C45_touch_example : repr2414 d2414_wide a2414_wide /\ wfw2414 a2414_wide /\
  exists l, In l (value_rows (n_body a2414_wide)) /\ touching l /\ is_freq (n_body a2414_wide) = false.
Proof.
  split; [|split].
  - repr2414_tac d2414_wide a2414_wide. split; [wit_arr|]. eexists; split; [vm_compute; reflexivity|]; wit_deep.
  - wfw2414_tac a2414_wide. split; [split; [discriminate|reflexivity]|]. wit.
  - eexists. split; [left; reflexivity|]. split; [|reflexivity]. eexists [], _, _, []. split; [reflexivity|]. vm_compute. reflexivity.
Qed.
Definition a2414_empty : ana := Eval vm_compute in
  a2414 1 1 2 3 [0; 7; 0; 0; 0; 0; 0; 0]%Z [0; 0; 0; 0; 0; 0; 0; 0]%Z (fl "0.25" :: skipn 1 zeros6) zeros6 (ANodes []).
Example C45_none_example : repr2414 d2414_empty a2414_empty /\ wfw2414 a2414_empty /\ n_body a2414_empty = ANodes [].
Proof.
  split; [|split].
  - repr2414_tac d2414_empty a2414_empty. split; [wit_arr|]. eexists; split; [vm_compute; reflexivity|]; wit_deep.
  - wfw2414_tac a2414_empty. split; [split; [discriminate|reflexivity]|]. wit.
  - reflexivity.
Qed.
