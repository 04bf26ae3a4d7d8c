(** Property C72 for the analysis results: types 2414 and 55. *)
From Coq Require Import String List NArith ZArith Bool QArith Lia.
Import ListNotations.
From Verif Require Import PyBase PyNum PyVal Utf8 Tools Facts IntFacts QFacts FloatFacts FloatText DictFacts DsNodes DsHeaders DsGroups Ds55 Ds2414 Uff
  Container Append Utf8Facts Lines Cells PropNumeral Accept PropAccept PropAccept2.
From Coq Require Import Lia.
Open Scope string_scope.
Open Scope list_scope.
Open Scope nat_scope.

(* ------------------------------------------------------------------ *)
(** ** Type 2414: what is claimed *)

(** The length of an array. *)
Definition array_len (d : dict) (k : string) (n : nat) : Prop :=
  (exists dt l, dget d (KS k) = Some (VArr dt l) /\ length l = n) \/ (exists dt rows, dget d (KS k) = Some (VArr2 dt rows) /\ length rows = n).
(** An array that has an entry for each row of the columns [t]. *)
Definition rows_ok (d : dict) (k : string) (t : list (string * kind * need)) : Prop :=
  exists n, array_len d k n /\ (n = 0 \/ Forall (column_ok d n) t).
Definition head2414 := fields Must Int ["analysis_dataset_label"; "dataset_location"; "model_type"; "analysis_type"; "data_characteristic"; "result_type"; "data_type";
    "number_of_data_values_for_the_data_component"]
  ++ fields Must Text ["analysis_dataset_name"; "id1"; "id2"; "id3"; "id4"; "id5"].
(** Frequency response (analysis type 5). *)
Definition freq2414 := fields Must Int ["design_set_id"; "iteration_number"; "solution_set_id"; "boundary_condition"; "load_set"; "mode_number"; "time_step_number"; "frequency_number";
    "creation_option"; "number_retained"]
  ++ fields Must Real ["time"; "frequency"; "eigenvalue"; "modal_mass"; "viscous_damping"; "hysteretic_damping"; "real_part_eigenvalue"; "imaginary_part_eigenvalue";
    "real_part_of_modal_A_or_modal_mass"; "imaginary_part_of_modal_A_or_modal_mass"; "real_part_of_modal_B_or_modal_mass"; "imaginary_part_of_modal_B_or_modal_mass"].
Definition components : list (Z * list string) := [(3, ["x"; "y"; "z"]); (2, ["x"; "y"]); (1, ["x"])]%Z.
Definition freq_ok (d : dict) : Prop := Forall (field_ok d) freq2414 /\ rows_ok d "node_nums" (fields Must Label ["node_nums"])
  /\ forall k cs v, In (k, cs) components -> dget d (KS "number_of_data_values_for_the_data_component") = Some v -> equals v k ->
     rows_ok d "node_nums" (fields Must Number cs).
(** The other analysis types. *)
Definition other2414 := fields May Int ["record10_field1"; "record10_field2"; "record10_field3"; "record10_field4"; "record10_field5"; "record10_field6"; "record10_field7"; "record10_field8";
    "record11_field1"; "record11_field2"; "record11_field3"; "record11_field4"; "record11_field5"; "record11_field6"; "record11_field7"; "record11_field8"]
  ++ fields May Real ["record12_field1"; "record12_field2"; "record12_field3"; "record12_field4"; "record12_field5"; "record12_field6";
    "record13_field1"; "record13_field2"; "record13_field3"; "record13_field4"; "record13_field5"; "record13_field6"].
Definition locations : list (Z * string * list (string * kind * need)) :=
  [(1%Z, "node_nums", fields Must Int ["node_nums"] ++ fields Must Reals ["data_at_node"]);
   (2%Z, "element_nums", fields Must Int ["element_nums"] ++ fields Must Reals ["data_at_element"]);
   (3%Z, "element_nums", fields Must Int ["element_nums"; "IEXP"; "number_of_nodes"; "number_of_values_per_node"] ++ fields Must Table ["data_at_nodes_on_element"])].
Definition other_ok (d : dict) : Prop := Forall (field_ok d) other2414
  /\ forall k nm t v, In (k, nm, t) locations -> dget d (KS "dataset_location") = Some v -> equals v k -> rows_ok d nm t.
Definition results_ok (d : dict) : Prop := Forall (field_ok d) head2414
  /\ forall v, dget d (KS "analysis_type") = Some v -> (equals v 5 -> freq_ok d) /\ (~ equals v 5 -> other_ok d).

(* ------------------------------------------------------------------ *)
(** ** Proof *)

Lemma shape_iff : forall d k n, array_len d k n <-> (do v <- ix d k ;; shape0 v) = Ok n.
Proof.
  intros d k n. unfold array_len, ix. destruct (dget d (KS k)) as [v|]; cbn [of_option rbind].
  - destruct v; cbn [shape0]; try (split; [intros [(dt' & l' & E & _)|(dt' & l' & E & _)]; discriminate|discriminate]; fail).
    + split; [intros [(dt' & l' & E & L)|(dt' & l' & E & L)]; [injection E as <- <-; congruence|discriminate]|]. intro E. injection E as <-. left. eauto.
    + split; [intros [(dt' & l' & E & L)|(dt' & l' & E & L)]; [discriminate|injection E as <- <-; congruence]|]. intro E. injection E as <-. right. eauto.
  - split; [intros [(dt' & l' & E & _)|(dt' & l' & E & _)]; discriminate|discriminate].
Qed.
Lemma for_shape_iff : forall (g : dict -> Z -> list item) d k ats t, (forall e i, Forall ok_item (g e (Z.of_nat i)) <-> Forall (holds e i) ats) -> 
  match col_table [] ats ats with Some t' => sub t t' && sub t' t | None => false end = true ->
  (Forall ok_item (for_shape d k (g d)) <-> rows_ok d k t).
Proof.
  intros g d k ats t Hg Hc. destruct (col_table [] ats ats) as [t'|] eqn:Et; [|discriminate]. unfold for_shape, rows_ok. split.
  - destruct (do v <- ix d k ;; shape0 v) as [n|e] eqn:E; [|intro H; apply not_ok1 in H; destruct H]. intro H. exists n. split; [apply shape_iff; exact E|].
    apply (col_base g d [] [] n ats t t' Hg (Forall2_nil _) Et Hc). exact H.
  - intros (n & Hn & H). apply shape_iff in Hn. rewrite Hn. apply (col_base g d [] [] n ats t t' Hg (Forall2_nil _) Et Hc). exact H.
Qed.
Lemma row13_iff : forall r, Forall ok_item (row13 r) <-> good Reals r.
Proof.
  intro r. unfold row13, good. cbn [takes]. destruct r as [v|e]; cbn [rbind]; [|split; [intro H; apply not_ok1 in H; destruct H|intros (v & E & _); discriminate]].
  rewrite to_seq_entries. destruct (entries v) as [l|] eqn:El.
  - rewrite Forall_snoc, List.Forall_map. assert (X : forall x, ok_item (txt "%13.5e" [Ok x]) <-> real x).
    { intro x. rewrite ok_txt. change (parse_fmt SNorm "%13.5e") with [FExp 13 5]. cbn [fits kind_of]. rewrite good_ok. cbn [takes]. tauto. }
    split.
    + intros [H _]. exists v. split; [reflexivity|]. exists l. split; [exact El|]. revert H. apply Forall_impl. intro x. apply X.
    + intros (v' & E & l' & El' & H). injection E as <-. rewrite El in El'. injection El' as <-. split; [|apply ok_nl]. revert H. apply Forall_impl. intro x. apply X.
  - split; [intro H; apply not_ok1 in H; destruct H|]. intros (v' & E & l' & El' & H). congruence.
Qed.
Lemma table_iff : forall r, Forall ok_item (match (do v <- r ;; to_seq v) with Err e => [WTxt (Err e)] | Ok rows => flat_map (fun r => row13 (Ok r)) rows end) <-> good Table r.
Proof.
  intro r. unfold good. cbn [takes]. destruct r as [v|e]; cbn [rbind]; [|split; [intro H; apply not_ok1 in H; destruct H|intros (v & E & _); discriminate]].
  rewrite to_seq_entries. destruct (entries v) as [l|] eqn:El.
  - rewrite List.Forall_flat_map. assert (X : forall x, Forall ok_item (row13 (Ok x)) <-> exists l', entries x = Some l' /\ Forall real l').
    { intro x. rewrite row13_iff, good_ok. reflexivity. }
    split.
    + intro H. exists v. split; [reflexivity|]. exists l. split; [exact El|]. revert H. apply Forall_impl. intro x. apply X.
    + intros (v' & E & l' & El' & H). injection E as <-. rewrite El in El'. injection El' as <-. revert H. apply Forall_impl. intro x. apply X.
  - split; [intro H; apply not_ok1 in H; destruct H|]. intros (v' & E & l' & El' & H). congruence.
Qed.
Lemma good_np_real : forall r, good Real (np_real r) <-> good Real (real_of r).
Proof.
  intros [v|e]; unfold np_real; cbn [rbind]; [|split; intros (x & E & _); discriminate].
  destruct v; try reflexivity; (split; intros (x & E & _); discriminate).
Qed.
Lemma good_np_imag : forall r, good Real (real_of r) -> good Real (np_imag r) /\ good Real (imag_of r).
Proof.
  intros r H. assert (I : good Real (imag_of r)) by (apply good_im, good_re, H). split; [|exact I]. destruct H as (x & E & _). destruct r as [v|e]; [|discriminate].
  unfold np_imag. cbn [rbind]. destruct v; try exact I; discriminate E.
Qed.
Lemma array_fun : forall d k n n', array_len d k n -> array_len d k n' -> n = n'.
Proof. intros d k n n' H H'. apply shape_iff in H. apply shape_iff in H'. congruence. Qed.
Lemma rows_join : forall d k t t', rows_ok d k (t ++ t') <-> rows_ok d k t /\ rows_ok d k t'.
Proof.
  intros d k t t'. split.
  - intros (n & Hn & [->|H]); [split; exists 0; auto|]. apply Forall_app in H as [H1 H2]. split; exists n; auto.
  - intros [(n & Hn & H) (n' & Hn' & H')]. pose proof (array_fun _ _ _ _ Hn Hn') as <-. exists n. split; [exact Hn|]. destruct H as [->|H]; [auto|]. destruct H' as [->|H']; [auto|].
    right. apply Forall_app. auto.
Qed.
Lemma for_shape_ext : forall d k f g, (forall i, f i = g i) -> for_shape d k f = for_shape d k g.
Proof. intros d k f g H. unfold for_shape. destruct (do v <- ix d k ;; shape0 v); [|reflexivity]. apply flat_map_ext. exact H. Qed.
Definition parts (e : dict) (i : Z) (k : string) : list (result pyval) := [np_real (at_ (ix e k) i); np_imag (at_ (ix e k) i)].
Definition node_items (rest : list (string * list string)) (e : dict) (i : Z) : list item :=
  txt "%10i\n" [int_arg (at_ (ix e "node_nums") i)] :: map (fun r => txt (fst r) (flat_map (parts e i) (snd r))) rest.
Lemma node_line : forall e i, ok_item (txt "%10i\n" [int_arg (at_ (ix e "node_nums") (Z.of_nat i))]) <-> holds e i (Int, SLab "node_nums").
Proof.
  intros e i. rewrite ok_txt. change (parse_fmt SNorm "%10i\n") with [FInt 10; FLit LF]. cbn [fits kind_of]. unfold holds. cbn [fst snd ev].
  split; [tauto|]. intro H. split; [exact H|]. split; [left; reflexivity|exact Logic.I].
Qed.
Definition cplx_fmt (n : nat) : list fspec := repeat (FExp 13 5) (2 * n) ++ [FLit LF].
Lemma parts_iff : forall e i ks, fits (cplx_fmt (length ks)) (flat_map (parts e (Z.of_nat i)) ks) <-> Forall (holds e i) (flat_map (fun k => [(Real, SRe k); (Real, SIm k)]) ks).
Proof.
  intros e i. induction ks as [|k ks IH].
  - cbn. split; [constructor|]. intros _. split; [left; reflexivity|exact Logic.I].
  - unfold cplx_fmt in *. cbn [length flat_map]. replace (2 * S (length ks)) with (S (S (2 * length ks))) by lia. cbn [repeat app parts fits kind_of].
    rewrite IH, !Forall_cons_iff. unfold holds at 2 3. cbn [fst snd ev]. rewrite good_np_real. split.
    + intros (A & B & C). split; [exact A|]. split; [apply (good_np_imag _ A)|exact C].
    + intros (A & B & C). split; [exact A|]. split; [apply (good_np_imag _ A)|exact C].
Qed.
Lemma freq_rows : forall d v, dget d (KS "number_of_data_values_for_the_data_component") = Some v -> integral v ->
  (Forall ok_item (for_shape d "node_nums" (node2414 d)) <-> rows_ok d "node_nums" (fields Must Label ["node_nums"])
    /\ forall k cs, In (k, cs) components -> equals v k -> rows_ok d "node_nums" (fields Must Number cs)).
Proof.
  intros d v Hv Hi.
  assert (E3 := eqZ_iff v 3 ltac:(cbn; tauto) Hi). assert (E2 := eqZ_iff v 2 ltac:(cbn; tauto) Hi). assert (E1 := eqZ_iff v 1 ltac:(cbn; tauto) Hi).
  assert (U : forall a b, equals v a -> equals v b -> In a small_ints -> In b small_ints -> a = b).
  { intros a b Ha Hb Ia Ib. unfold equals in Ha, Hb. destruct Ha as [Ha|[Ha|[Ha ->]]], Hb as [Hb|[Hb|[Hb ->]]]; try congruence. rewrite Ha in Hb. injection Hb as Hb. clear - Ia Ib Hb.
    cbn in Ia, Ib. repeat (destruct Ia as [<-|Ia]; [repeat (destruct Ib as [<-|Ib]; [first [reflexivity|vm_compute in Hb; discriminate Hb]|]); destruct Ib|]). destruct Ia. }
  assert (G : forall f cs, parse_fmt SNorm f = cplx_fmt (length cs) -> (forall i, node2414 d i = node_items [(f, cs)] d i) ->
    In cs [["x"; "y"; "z"]; ["x"; "y"]; ["x"]] ->
    (Forall ok_item (for_shape d "node_nums" (node2414 d)) <-> rows_ok d "node_nums" (fields Must Label ["node_nums"]) /\ rows_ok d "node_nums" (fields Must Number cs))).
  { intros f cs Hf Hn Hc. rewrite <- rows_join, (for_shape_ext _ _ _ _ Hn).
    apply (for_shape_iff (node_items [(f, cs)]) d "node_nums" ((Int, SLab "node_nums") :: flat_map (fun k => [(Real, SRe k); (Real, SIm k)]) cs)).
    - intros e i. unfold node_items. cbn [map fst snd]. rewrite !Forall_cons_iff, node_line, ok_txt, Hf, parts_iff. split; [tauto|]. intros [A B]. repeat split; auto.
    - cbn in Hc. destruct Hc as [<-|[<-|[<-|[]]]]; vm_compute; reflexivity. }
  assert (Ei : forall i, node2414 d i = txt "%10i\n" [int_arg (at_ (ix d "node_nums") i)] ::
    (if py_eqZ v 3 then [txt "%13.5e%13.5e%13.5e%13.5e%13.5e%13.5e\n" (parts d i "x" ++ parts d i "y" ++ parts d i "z")]
     else if py_eqZ v 2 then [txt "%13.5e%13.5e%13.5e%13.5e\n" (parts d i "x" ++ parts d i "y")]
     else if py_eqZ v 1 then [txt "%13.5e%13.5e\n" (parts d i "x")] else [])).
  { intro i. unfold node2414. unfold ix at 2. rewrite Hv. reflexivity. }
  destruct (py_eqZ v 3) eqn:B3; [|destruct (py_eqZ v 2) eqn:B2; [|destruct (py_eqZ v 1) eqn:B1]].
  - rewrite (G "%13.5e%13.5e%13.5e%13.5e%13.5e%13.5e\n" ["x"; "y"; "z"] eq_refl); [|intro i; rewrite Ei; reflexivity|left; reflexivity].
    apply and_iff_compat_l. split.
    + intros H k cs Hin He. assert (k = 3%Z) as ->.
      { apply (U k 3%Z He); [apply E3; reflexivity| |cbn; tauto]. cbn in Hin. cbn. intuition congruence. }
      cbn in Hin. destruct Hin as [Hin|[Hin|[Hin|[]]]]; try discriminate. injection Hin as <-. exact H.
    + intro H. apply (H 3%Z); [left; reflexivity|apply E3; reflexivity].
  - rewrite (G "%13.5e%13.5e%13.5e%13.5e\n" ["x"; "y"] eq_refl); [|intro i; rewrite Ei; reflexivity|right; left; reflexivity].
    apply and_iff_compat_l. split.
    + intros H k cs Hin He. assert (k = 2%Z) as ->.
      { apply (U k 2%Z He); [apply E2; reflexivity| |cbn; tauto]. cbn in Hin. cbn. intuition congruence. }
      cbn in Hin. destruct Hin as [Hin|[Hin|[Hin|[]]]]; try discriminate. injection Hin as <-. exact H.
    + intro H. apply (H 2%Z); [right; left; reflexivity|apply E2; reflexivity].
  - rewrite (G "%13.5e%13.5e\n" ["x"] eq_refl); [|intro i; rewrite Ei; reflexivity|right; right; left; reflexivity].
    apply and_iff_compat_l. split.
    + intros H k cs Hin He. assert (k = 1%Z) as ->.
      { apply (U k 1%Z He); [apply E1; reflexivity| |cbn; tauto]. cbn in Hin. cbn. intuition congruence. }
      cbn in Hin. destruct Hin as [Hin|[Hin|[Hin|[]]]]; try discriminate. injection Hin as <-. exact H.
    + intro H. apply (H 1%Z); [right; right; left; reflexivity|apply E1; reflexivity].
  - assert (Hn : forall i, node2414 d i = node_items [] d i) by (intro i; rewrite Ei; reflexivity). rewrite (for_shape_ext _ _ _ _ Hn).
    rewrite (for_shape_iff (node_items []) d "node_nums" [(Int, SLab "node_nums")] (fields Must Label ["node_nums"])); [|intros e i; unfold node_items; cbn [map]; rewrite !Forall_cons_iff, node_line; split; intros [A _]; split; try exact A; constructor|vm_compute; reflexivity].
    split; [|tauto]. intro H. split; [exact H|]. intros k cs Hin He. exfalso. cbn in Hin. destruct Hin as [Hin|[Hin|[Hin|[]]]]; injection Hin as <- <-; [apply E3 in He|apply E2 in He|apply E1 in He]; congruence.
Qed.
Definition loc1 (e : dict) (i : Z) : list item := txt "%10i\n" [at_ (ix e "node_nums") i] :: row13 (at_ (ix e "data_at_node") i).
Definition loc2 (e : dict) (i : Z) : list item := txt "%10i%10i\n" [at_ (ix e "element_nums") i; len_arg (at_ (ix e "data_at_element") i)] :: row13 (at_ (ix e "data_at_element") i).
Definition loc3 (e : dict) (i : Z) : list item :=
  txt "%10i%10i%10i%10i\n" (map (fun k => at_ (ix e k) i) ["element_nums"; "IEXP"; "number_of_nodes"; "number_of_values_per_node"])
  :: match (do v <- at_ (ix e "data_at_nodes_on_element") i ;; to_seq v) with Err ex => [WTxt (Err ex)] | Ok rows => flat_map (fun r => row13 (Ok r)) rows end.
Lemma loc1_iff : forall d, Forall ok_item (for_shape d "node_nums" (loc1 d)) <-> rows_ok d "node_nums" (fields Must Int ["node_nums"] ++ fields Must Reals ["data_at_node"]).
Proof.
  intro d. apply (for_shape_iff loc1 d "node_nums" [(Int, SCol "node_nums"); (Reals, SCol "data_at_node")]); [|vm_compute; reflexivity].
  intros e i. unfold loc1. rewrite !Forall_cons_iff, ok_txt, row13_iff. change (parse_fmt SNorm "%10i\n") with [FInt 10; FLit LF]. cbn [fits kind_of]. unfold holds. cbn [fst snd ev].
  split; [intros ((A & _) & B); repeat split; auto; constructor|]. intros (A & B & _). split; [|exact B]. split; [exact A|]. split; [left; reflexivity|exact Logic.I].
Qed.
Lemma loc2_iff : forall d, Forall ok_item (for_shape d "element_nums" (loc2 d)) <-> rows_ok d "element_nums" (fields Must Int ["element_nums"] ++ fields Must Reals ["data_at_element"]).
Proof.
  intro d. apply (for_shape_iff loc2 d "element_nums" [(Int, SCol "element_nums"); (Reals, SCol "data_at_element")]); [|vm_compute; reflexivity].
  intros e i. unfold loc2. rewrite !Forall_cons_iff, ok_txt, row13_iff. change (parse_fmt SNorm "%10i%10i\n") with [FInt 10; FInt 10; FLit LF]. cbn [fits kind_of]. unfold holds. cbn [fst snd ev].
  split; [intros ((A & _) & B); repeat split; auto; constructor|]. intros (A & B & _). split; [|exact B]. split; [exact A|]. split; [|split; [left; reflexivity|exact Logic.I]].
  destruct B as (v & E & l & El & _). rewrite E. unfold good, len_arg. cbn [rbind]. unfold py_len. rewrite to_seq_entries, El. cbn [rbind]. eexists. split; [reflexivity|exact Logic.I].
Qed.
Lemma loc3_iff : forall d, Forall ok_item (for_shape d "element_nums" (loc3 d)) <->
  rows_ok d "element_nums" (fields Must Int ["element_nums"; "IEXP"; "number_of_nodes"; "number_of_values_per_node"] ++ fields Must Table ["data_at_nodes_on_element"]).
Proof.
  intro d. apply (for_shape_iff loc3 d "element_nums" (map (fun k => (Int, SCol k)) ["element_nums"; "IEXP"; "number_of_nodes"; "number_of_values_per_node"] ++ [(Table, SCol "data_at_nodes_on_element")])); [|vm_compute; reflexivity].
  intros e i. unfold loc3. cbn [map app]. rewrite !Forall_cons_iff, ok_txt, table_iff. change (parse_fmt SNorm "%10i%10i%10i%10i\n") with [FInt 10; FInt 10; FInt 10; FInt 10; FLit LF]. cbn [fits kind_of]. unfold holds. cbn [fst snd ev].
  split; [intros ((A1 & A2 & A3 & A4 & _) & B); repeat split; auto; constructor|]. intros (A1 & A2 & A3 & A4 & B & _). split; [|exact B]. repeat split; try assumption. left. reflexivity.
Qed.
Definition loc_items (d : dict) (loc : pyval) : list item :=
  if py_eqZ loc 1 then for_shape d "node_nums" (loc1 d) ++ [end_line]
  else if py_eqZ loc 2 then for_shape d "element_nums" (loc2 d) ++ [end_line]
  else if py_eqZ loc 3 then for_shape d "element_nums" (loc3 d) ++ [end_line]
  else if py_eqZ loc 5 then [] else [end_line].
Lemma equals_fun : forall v a b, equals v a -> equals v b -> In a small_ints -> In b small_ints -> a = b.
Proof.
  intros v a b Ha Hb Ia Ib. unfold equals in Ha, Hb. destruct Ha as [Ha|[Ha|[Ha ->]]], Hb as [Hb|[Hb|[Hb ->]]]; try congruence. rewrite Ha in Hb. injection Hb as Hb. clear - Ia Ib Hb.
  cbn in Ia, Ib. repeat (destruct Ia as [<-|Ia]; [repeat (destruct Ib as [<-|Ib]; [first [reflexivity|vm_compute in Hb; discriminate Hb]|]); destruct Ib|]). destruct Ia.
Qed.
Lemma loc_iff : forall d v, integral v -> (Forall ok_item (loc_items d v) <-> forall k nm t, In (k, nm, t) locations -> equals v k -> rows_ok d nm t).
Proof.
  intros d v Hi. assert (E3 := eqZ_iff v 3 ltac:(cbn; tauto) Hi). assert (E2 := eqZ_iff v 2 ltac:(cbn; tauto) Hi). assert (E1 := eqZ_iff v 1 ltac:(cbn; tauto) Hi). unfold loc_items.
  assert (S : forall k nm t, In (k, nm, t) locations -> In k small_ints) by (intros k nm t Hin; cbn in Hin; cbn; intuition congruence).
  destruct (py_eqZ v 1) eqn:B1; [|destruct (py_eqZ v 2) eqn:B2; [|destruct (py_eqZ v 3) eqn:B3]].
  - rewrite Forall_snoc, loc1_iff, ok_end. split.
    + intros [H _] k nm t Hin He. assert (k = 1%Z) as -> by (apply (equals_fun v k 1%Z He); [apply E1; reflexivity|exact (S _ _ _ Hin)|cbn; tauto]).
      unfold locations in Hin. destruct Hin as [Hin|[Hin|[Hin|[]]]]; try discriminate. injection Hin as <- <-. exact H.
    + intro H. split; [|exact Logic.I]. apply (H 1%Z); [left; reflexivity|apply E1; reflexivity].
  - rewrite Forall_snoc, loc2_iff, ok_end. split.
    + intros [H _] k nm t Hin He. assert (k = 2%Z) as -> by (apply (equals_fun v k 2%Z He); [apply E2; reflexivity|exact (S _ _ _ Hin)|cbn; tauto]).
      unfold locations in Hin. destruct Hin as [Hin|[Hin|[Hin|[]]]]; try discriminate. injection Hin as <- <-. exact H.
    + intro H. split; [|exact Logic.I]. apply (H 2%Z); [right; left; reflexivity|apply E2; reflexivity].
  - rewrite Forall_snoc, loc3_iff, ok_end. split.
    + intros [H _] k nm t Hin He. assert (k = 3%Z) as -> by (apply (equals_fun v k 3%Z He); [apply E3; reflexivity|exact (S _ _ _ Hin)|cbn; tauto]).
      unfold locations in Hin. destruct Hin as [Hin|[Hin|[Hin|[]]]]; try discriminate. injection Hin as <- <-. exact H.
    + intro H. split; [|exact Logic.I]. apply (H 3%Z); [right; right; left; reflexivity|apply E3; reflexivity].
  - split.
    + intros _ k nm t Hin He. exfalso. unfold locations in Hin. destruct Hin as [Hin|[Hin|[Hin|[]]]]; injection Hin as <- <- <-; [apply E1 in He|apply E2 in He|apply E3 in He]; congruence.
    + intros _. destruct (py_eqZ v 5); [constructor|]. constructor; [apply ok_end; exact Logic.I|constructor].
Qed.

(** The two variants, on the dictionary with the defaults. *)
Definition freq_fixed (e : dict) : list item :=
  [txt fmt8 (map (ix e) names10); txt "%10i%10i\n" (map (ix e) names11); txt fmt6e (map (ix e) names12); txt fmt6e (map (ix e) names13)].
Definition other_fixed (e : dict) : list item :=
  [txt fmt8 (map (ix e) (rec_names "10" 8)); txt fmt8 (map (ix e) (rec_names "11" 8)); txt fmt6e (map (ix e) (rec_names "12" 6)); txt fmt6e (map (ix e) (rec_names "13" 6))].
Lemma other_fixed_iff : forall d, Forall ok_item (other_fixed (opt_fields d defaults2414)) <-> Forall (field_ok d) other2414.
Proof.
  intro d. apply (scalar_plan other_fixed d (map (fun k => (k, Int)) (rec_names "10" 8 ++ rec_names "11" 8) ++ map (fun k => (k, Real)) (rec_names "12" 6 ++ rec_names "13" 6)) defaults2414
    [(fmt8, map SField (rec_names "10" 8)); (fmt8, map SField (rec_names "11" 8)); (fmt6e, map SField (rec_names "12" 6)); (fmt6e, map SField (rec_names "13" 6))]).
  - intro e. reflexivity.
  - unfold defaults2414, rec_names. cbn [map app firstn]. unfold defaults_ok.
    repeat (apply Forall2_cons; [split; [reflexivity|cbn [snd takes integral real]; first [exact Logic.I|reflexivity]]|]). constructor.
  - vm_compute. reflexivity.
Qed.
Lemma freq_fixed_iff : forall d, Forall ok_item (freq_fixed d) <-> Forall (field_ok d) freq2414.
Proof.
  intro d. apply (scalar_plan0 freq_fixed d [(fmt8, map SField names10); ("%10i%10i\n", map SField names11); (fmt6e, map SField names12); (fmt6e, map SField names13)]); [intro e; reflexivity|vm_compute; reflexivity].
Qed.
Definition head_items (e : dict) : list item :=
  [txt "%6i\n%6i\n" [Tools.I (-1); Tools.I 2414]; txt "%10i\n" [ix e "analysis_dataset_label"]; txt "%-80s\n" [ix e "analysis_dataset_name"]; txt "%10i\n" [ix e "dataset_location"]]
  ++ map (fun k => txt "%-80s\n" [ix e k]) ["id1"; "id2"; "id3"; "id4"; "id5"] ++ [txt "%10i%10i%10i%10i%10i%10i\n" (map (ix e) names9)].
Lemma head_items_iff : forall d, Forall ok_item (head_items d) <-> Forall (field_ok d) head2414.
Proof.
  intro d. apply (scalar_plan0 head_items d ([("%6i\n%6i\n", [SConst (VInt (-1)); SConst (VInt 2414)]); ("%10i\n", [SField "analysis_dataset_label"]); ("%-80s\n", [SField "analysis_dataset_name"]); ("%10i\n", [SField "dataset_location"])]
    ++ map (fun k => ("%-80s\n", [SField k])) ["id1"; "id2"; "id3"; "id4"; "id5"] ++ [("%10i%10i%10i%10i%10i%10i\n", map SField names9)])); [intro e; reflexivity|vm_compute; reflexivity].
Qed.
(** Fields without a default are those of the caller. *)
Definition free (defs : dict) (k : string) : bool := negb (dmem defs (KS k)).
Definition frees (defs : dict) (t : list (string * kind * need)) : bool := forallb (fun f => free defs (fst (fst f))) t.
Lemma free_get : forall d defs k, free defs k = true -> dget (opt_fields d defs) (KS k) = dget d (KS k).
Proof.
  intros d defs k H. rewrite opt_fields_get. unfold free, dmem in H. destruct (dget defs (KS k)); [discriminate|]. destruct (dget d (KS k)); reflexivity.
Qed.
Definition agree (defs d e : dict) : Prop := forall k, free defs k = true -> dget e (KS k) = dget d (KS k).
Lemma free_fields : forall d e defs t, agree defs d e -> frees defs t = true -> (Forall (field_ok e) t <-> Forall (field_ok d) t).
Proof.
  intros d e defs t G H. unfold frees in H. rewrite forallb_forall in H. rewrite !Forall_forall.
  assert (X : forall f, In f t -> (field_ok e f <-> field_ok d f)) by (intros f Hf; unfold field_ok; rewrite (G _ (H f Hf)); reflexivity).
  split; intros F f Hf; apply (X f Hf), F, Hf.
Qed.
Lemma free_rows : forall d e defs k t, agree defs d e -> free defs k = true -> frees defs t = true -> (rows_ok e k t <-> rows_ok d k t).
Proof.
  intros d e defs k t G Hk H. unfold frees in H. rewrite forallb_forall in H. unfold rows_ok, array_len. rewrite (G k Hk).
  assert (X : forall n f, In f t -> (column_ok e n f <-> column_ok d n f)) by (intros n f Hf; unfold column_ok; rewrite (G _ (H f Hf)); reflexivity).
  assert (Y : forall n, Forall (column_ok e n) t <-> Forall (column_ok d n) t).
  { intro n. rewrite !Forall_forall. split; intros F f Hf; apply (X n f Hf), F, Hf. }
  split; intros (n & A & [B|B]); exists n; (split; [exact A|]); [left; exact B|right; apply Y; exact B|left; exact B|right; apply Y; exact B].
Qed.
Lemma plan2414 : forall d e, agree defaults2414 d e -> (Forall ok_item (other_fixed e) <-> Forall (field_ok d) other2414) ->
  (Forall ok_item (head_items e ++ body2414 e) <-> results_ok d).
Proof.
  intros d e Ge Ho.
  rewrite Forall_app, head_items_iff, (free_fields d e defaults2414 head2414 Ge) by (vm_compute; reflexivity). unfold results_ok. 
  assert (X : Forall (field_ok d) head2414 -> (Forall ok_item (body2414 e) <->
    forall v, dget d (KS "analysis_type") = Some v -> (equals v 5 -> freq_ok d) /\ (~ equals v 5 -> other_ok d))).
  { intro F. rewrite Forall_forall in F.
    assert (G : forall k, In (k, Int, Must) head2414 -> free defaults2414 k = true -> exists v, dget d (KS k) = Some v /\ integral v /\ dget e (KS k) = Some v).
    { intros k Hk Hp. specialize (F _ Hk). unfold field_ok in F. cbn [fst snd takes] in F. rewrite (Ge k Hp). destruct (dget d (KS k)) as [v|]; [eauto|discriminate]. }
    destruct (G "analysis_type" ltac:(cbn; tauto) eq_refl) as (a & Ha & Ia & Ha').
    destruct (G "dataset_location" ltac:(cbn; tauto) eq_refl) as (lc & Hl & Il & Hl').
    destruct (G "number_of_data_values_for_the_data_component" ltac:(cbn; tauto) eq_refl) as (nv & Hn & In_ & Hn').
    assert (B : body2414 e = if py_eqZ a 5 then freq_fixed e ++ for_shape e "node_nums" (node2414 e) ++ [end_line]
      else other_fixed e ++ loc_items e lc).
    { unfold body2414. unfold ix at 1. rewrite Ha'. cbn [of_option]. destruct (py_eqZ a 5); [reflexivity|].
      unfold ix at 5. rewrite Hl'. reflexivity. }
    rewrite B. clear B. pose proof (eqZ_iff a 5 ltac:(cbn; tauto) Ia) as E5.
    assert (Q : (forall v, dget d (KS "analysis_type") = Some v -> (equals v 5 -> freq_ok d) /\ (~ equals v 5 -> other_ok d)) <-> (if py_eqZ a 5 then freq_ok d else other_ok d)).
    { destruct (py_eqZ a 5).
      - split; [intro H; apply (H a Ha), E5; reflexivity|]. intros H v Hv. split; [auto|]. intro N. exfalso. apply N. rewrite Ha in Hv. injection Hv as <-. apply E5. reflexivity.
      - split; [intro H; apply (H a Ha); intro C; apply E5 in C; discriminate|]. intros H v Hv. split; [|auto]. rewrite Ha in Hv. injection Hv as <-. intro C. apply E5 in C. discriminate. }
    rewrite Q. clear Q. destruct (py_eqZ a 5).
    - rewrite !Forall_app, freq_fixed_iff, (freq_rows _ nv Hn' In_), (free_fields d e defaults2414 freq2414 Ge) by (vm_compute; reflexivity).
      rewrite (free_rows d e defaults2414 "node_nums" (fields Must Label ["node_nums"]) Ge eq_refl eq_refl). unfold freq_ok.
      assert (P : forall k cs, In (k, cs) components -> (rows_ok e "node_nums" (fields Must Number cs) <-> rows_ok d "node_nums" (fields Must Number cs))).
      { intros k cs Hin. apply (free_rows d e defaults2414); [exact Ge|reflexivity|]. cbn in Hin. destruct Hin as [Hin|[Hin|[Hin|[]]]]; injection Hin as <- <-; vm_compute; reflexivity. }
      split.
      + intros (A & (B & C) & _). split; [exact A|]. split; [exact B|]. intros k cs v Hin Hv He. rewrite Hn in Hv. injection Hv as <-. apply (P k cs Hin), (C k cs Hin He).
      + intros (A & B & C). split; [exact A|]. split; [split; [exact B|]|constructor; [apply ok_end; exact Logic.I|constructor]]. intros k cs Hin He. apply (P k cs Hin), (C k cs nv Hin Hn He).
    - rewrite Forall_app, Ho, (loc_iff _ lc Il). unfold other_ok.
      assert (P : forall k nm t, In (k, nm, t) locations -> (rows_ok e nm t <-> rows_ok d nm t)).
      { intros k nm t Hin. unfold locations in Hin. destruct Hin as [Hin|[Hin|[Hin|[]]]]; injection Hin as <- <- <-; (apply (free_rows d e defaults2414); [exact Ge|vm_compute; reflexivity..]). }
      split.
      + intros (A & C). split; [exact A|]. intros k nm t v Hin Hv He. rewrite Hl in Hv. injection Hv as <-. apply (P k nm t Hin), (C k nm t Hin He).
      + intros (A & C). split; [exact A|]. intros k nm t Hin He. apply (P k nm t Hin), (C k nm t lc Hin Hl He). }
  split; intros [A B]; (split; [exact A|]); apply (X A); exact B.
Qed.
Definition items2414 (d1 : dict) : list item :=
  [ txt "%6i\n%6i\n" [Tools.I (-1); Tools.I 2414];
    txt "%10i\n" [ix d1 "analysis_dataset_label"];
    txt "%-80s\n" [ix d1 "analysis_dataset_name"];
    txt "%10i\n" [ix d1 "dataset_location"] ]
  ++ map (fun k => txt "%-80s\n" [ix d1 k]) ["id1"; "id2"; "id3"; "id4"; "id5"]%string
  ++ txt "%10i%10i%10i%10i%10i%10i\n" (map (ix d1) names9)
  :: body2414 d1.
Lemma items2414_eq : forall e, items2414 e = head_items e ++ body2414 e.
Proof. reflexivity. Qed.
Lemma write2414_items : forall d, wp_items (write2414 d) = items2414 (opt_fields d defaults2414).
Proof. intro d. unfold write2414. cbn [wp_items]. unfold items2414. exact eq_refl. Qed.
Theorem C72_2414 : forall c m fd file u d, dget d (KS "type") = Some (VInt 2414) -> dget d (KS "data") = None ->
  (w_exc (write_set c m fd file u d) = None <-> results_ok d).
Proof.
  intros c m fd file u d Ht Hd. rewrite (accepted _ _ _ _ _ _ _ Ht Hd). change (write_dispatch c m fd (VInt 2414) d) with (write2414 d).
  rewrite write2414_items, items2414_eq. exact (plan2414 d (opt_fields d defaults2414) (fun k Hk => free_get d defaults2414 k Hk) (other_fixed_iff d)).
Qed.
Print Assumptions C72_2414.
