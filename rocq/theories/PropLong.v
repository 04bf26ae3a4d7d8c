(** C62: records that go on in a second line: every documented layout of an
    element with more than eight nodes (2412), or of an entry with more than six
    values (2414), is misread. *)
From Coq Require Import String List NArith ZArith Bool Lia.
Import ListNotations.
From Verif Require Import PyBase PyNum PyVal Utf8 Tools DsNodes DsHeaders DsGroups Ds55 Ds58 Ds2414 Uff Facts IntFacts FloatFacts DecFacts FloatText FloatExact DictFacts
  Scan Container Append ContainerThms Utf8Facts Lines Stored Cells Rows RtNodes RtCs RtHeads RtElems RtGroups RtNodal RtFun RtFunSet RtAnalysis Witness
  PropNodes PropHeads PropGroups PropNodal PropFun PropAnalysis PropHistory Layout PropLayout Reading ReadNodes ReadSets Read55 Read58 Read2414 PropReading.
From Coq Require Import Lia.
Open Scope string_scope.
Open Scope list_scope.
Open Scope nat_scope.

(** ** At most as many words as fields *)
Lemma split_by_cons : forall ws c r, split_by ws (c :: r) = if ws c then split_by ws r else
  match r with [] => [[c]] | c' :: _ => if ws c' then [c] :: split_by ws r else match split_by ws r with [] => [[c]] | t :: ts => (c :: t) :: ts end end.
Proof. intros. reflexivity. Qed.
Lemma split_by_app_le : forall ws a b, length (split_by ws (a ++ b)) <= length (split_by ws a) + length (split_by ws b).
Proof.
  intros ws a b. induction a as [|c a IH]; [reflexivity|]. cbn [app]. rewrite !(split_by_cons ws c). destruct (ws c); [exact IH|].
  destruct a as [|e a].
  - cbn [app]. destruct b as [|e b]; [cbn; lia|]. destruct (ws e); [cbn [length]; lia|]. destruct (split_by ws (e :: b)); cbn [length]; lia.
  - cbn [app] in *. destruct (ws e); [cbn [length]; lia|].
    destruct (split_by ws (e :: a ++ b)), (split_by ws (e :: a)); cbn [length] in *; lia.
Qed.
Lemma line_words : forall dx need room line fs, line_of dx need room line fs -> forallb num fs = true -> length (split line) <= length fs.
Proof.
  intros dx need room line fs (cols & k & -> & Hc & _) Hn. rewrite split_trail. revert Hc. generalize true as first. revert fs Hn.
  induction cols as [|t cols IH]; intros [|f fs] Hn first Hc; cbn [columns] in Hc; try contradiction; [cbn; lia|].
  destruct Hc as (H1 & _ & H3). cbn [forallb] in Hn. apply andb_true_iff in Hn as [Hn1 Hn2]. cbn [concat length].
  destruct (holds_tok _ _ _ H1 Hn1) as (s & Es & _). assert (L := split_by_app_le is_ws t (concat cols)). fold split in L. rewrite Es in L. cbn [length] in L.
  specialize (IH fs Hn2 false H3). lia.
Qed.
Lemma rows_le : forall A k (l : list A), 0 < k -> Forall (fun r => length r <= k) (rows_of k l).
Proof.
  intros A k l Hk. rewrite <- chunks_rows by assumption. assert (T : Forall (fun _ : A => True) l) by (rewrite Forall_forall; auto).
  eapply Forall_impl; [|apply (chunks_ok A _ k l Hk T)]. intros a Ha. apply Ha.
Qed.
Definition upto (k : nat) (fs : list field) : Prop := forallb num fs = true /\ length fs <= k.
Lemma words_le : forall dx need room k ls recs, Forall2 (line_of dx need room) ls recs -> Forall (upto k) recs -> Forall (fun l => length (split l) <= k) ls.
Proof.
  intros dx need room k ls recs H. induction H as [|l fs ls recs Hl _ IH]; intro Hu; constructor; inversion Hu as [|? ? [H1 H2] Hu']; subst; [|auto].
  assert (L := line_words _ _ _ _ _ Hl H1). lia.
Qed.
Lemma I10s_upto : forall k l, length l <= k -> upto k (I10s l).
Proof. intros k l H. split; [|unfold I10s; rewrite map_length; exact H]. apply forallb_forall. unfold I10s. intros f Hf. apply in_map_iff in Hf as (z & <- & _). reflexivity. Qed.
Lemma E13s_upto : forall k l, length l <= k -> upto k (E13s l).
Proof. intros k l H. split; [|unfold E13s; rewrite map_length; exact H]. apply forallb_forall. unfold E13s. intros f Hf. apply in_map_iff in Hf as (z & <- & _). reflexivity. Qed.
Lemma rmap_in : forall A B (f : A -> result B) l l', rmap f l = Ok l' -> forall b, In b l' -> exists a, In a l /\ f a = Ok b.
Proof.
  intros A B f l. unfold rmap. induction l as [|a l IH]; intros l' E b Hb; cbn [map rseq] in E; [injection E as <-; contradiction|].
  destruct (f a) as [x|] eqn:Ea; [|discriminate]. cbn [rbind] in E. destruct (rseq (map f l)) as [y|] eqn:El; [|discriminate]. injection E as <-.
  destruct Hb as [<-|Hb]; [exists a; cbn; auto|]. destruct (IH y eq_refl b Hb) as (a' & H1 & H2). exists a'. cbn. auto.
Qed.
Lemma rmap_length : forall A B (f : A -> result B) l l', rmap f l = Ok l' -> length l' = length l.
Proof.
  intros A B f l. unfold rmap. induction l as [|a l IH]; intros l' E; cbn [map rseq] in E; [injection E as <-; reflexivity|].
  destruct (f a) as [x|] eqn:Ea; [|discriminate]. cbn [rbind] in E. destruct (rseq (map f l)) as [y|] eqn:El; [|discriminate]. injection E as <-. cbn [length]. f_equal. auto.
Qed.

(* ------------------------------------------------------------------ *)
(** ** 2412 *)

Definition eight (v : pyval) : Prop := exists e ns, v = VDict e /\ dget e (KS "nodes_nums") = Some (VList ns) /\ length ns <= 8.
Definition eights (d : dict) : Prop := forall k vs, dget d (KI k) = Some (VList vs) -> Forall eight vs.
Lemma elem_eight : forall line rest e desc rest', read_elem2412 line rest = Ok (e, desc, rest') -> Forall (fun l => length l <= 8) rest ->
  eight (VDict e) /\ Forall (fun l => length l <= 8) rest'.
Proof.
  intros line rest e desc rest' E Hr. unfold read_elem2412 in E.
  assert (P : forall l ns, parse_ints l = Ok ns -> length l <= 8 -> length (map VInt ns) <= 8) by (intros l ns H L; rewrite map_length; rewrite (rmap_length _ _ _ _ _ H); exact L).
  repeat match type of E with (do _ <- ?x ;; _) = Ok _ => destruct x as [?|] eqn:?; [cbn [rbind] in E|discriminate E] end. cbv zeta in E.
  destruct (is_rod _).
  - destruct rest as [|l1 rest]; [discriminate|].
    repeat match type of E with (do _ <- ?x ;; _) = Ok _ => destruct x as [?|] eqn:?; [cbn [rbind] in E|discriminate E] end.
    destruct rest as [|l2 rest]; [discriminate|]. inversion Hr as [|? ? _ Hr1]; subst. inversion Hr1 as [|? ? H2 Hr2]; subst.
    destruct (parse_ints l2) as [ns|] eqn:Ep; [|discriminate]. cbn [rbind] in E. injection E as <- _ <-. split; [|exact Hr2].
    eexists _, _. split; [reflexivity|]. split; [reflexivity|]. eapply P; eassumption.
  - destruct rest as [|l1 rest]; [discriminate|]. inversion Hr as [|? ? H1 Hr1]; subst.
    destruct (parse_ints l1) as [ns|] eqn:Ep; [|discriminate]. cbn [rbind] in E. injection E as <- _ <-. split; [|exact Hr1].
    eexists _, _. split; [reflexivity|]. split; [reflexivity|]. eapply P; eassumption.
Qed.
Lemma add_eight : forall d desc e, eights d -> eight (VDict e) -> eights (add_elem d desc e).
Proof.
  intros d desc e Hd He k vs H. unfold add_elem in H.
  destruct (Z.eqb_spec k desc) as [->|Hk].
  - assert (K : key_eqb (KI desc) (KI desc) = true) by apply Z.eqb_refl.
    destruct (dget d (KI desc)) as [v|] eqn:Ed; [destruct v|]; rewrite dget_dput, K in H; injection H as <-; try (constructor; [exact He|constructor]).
    apply Forall_app. split; [exact (Hd _ _ Ed)|constructor; [exact He|constructor]].
  - assert (K : key_eqb (KI k) (KI desc) = false) by (apply Z.eqb_neq; exact Hk).
    destruct (dget d (KI desc)) as [v|] eqn:Ed; [destruct v|]; rewrite dget_dput, K in H; exact (Hd _ _ H).
Qed.
Lemma loop_eight : forall fuel lines d d', loop2412 fuel lines d = Ok d' -> Forall (fun l => length l <= 8) lines -> eights d -> eights d'.
Proof.
  induction fuel as [|fuel IH]; intros [|line rest] d d' E Hl Hd; cbn [loop2412] in E; try discriminate; try (injection E as <-; exact Hd).
  inversion Hl as [|? ? _ Hr]; subst. destruct (read_elem2412 line rest) as [[[e desc] rest']|] eqn:Ee; [|discriminate]. cbn [rbind] in E.
  destruct (elem_eight _ _ _ _ _ Ee Hr) as [H1 H2]. eapply IH; [exact E|exact H2|]. apply add_eight; assumption.
Qed.
Lemma legacy_eight : forall d num name d', legacy d num name = Ok d' -> eights d -> eights d'.
Proof.
  intros d num name d' E Hd. unfold legacy in E. destruct (dget d (KI num)) as [v|]; [|injection E as <-; exact Hd].
  repeat match type of E with (do _ <- ?x ;; _) = Ok _ => destruct x as [?|] eqn:?; [cbn [rbind] in E|discriminate E] end. injection E as <-.
  intros k vs H. rewrite dget_dput in H. cbn [key_eqb] in H. exact (Hd _ _ H).
Qed.
Theorem C62_nodes_general_refuted : forall need room l block ps ho, block_lines block ps ->
  Forall2 (line_of false need room) (map fst ps) (documented (X2412 l)) -> Exists (fun e => 8 < length (e_nodes e)) l ->
  extract_set 2412 block ho <> Ok (reading ho (X2412 l)).
Proof.
  intros need room l block ps ho Hb H Hx. cbn [documented reading] in *.
  assert (Hw : Forall (fun s => length (split s) <= 8) (map fst ps)).
  { eapply words_le; [exact H|]. apply Forall_flat. intros e _. unfold doc2412. constructor; [apply I10s_upto; cbn; lia|]. apply Forall_app. split.
    - destruct (is_beam e); [|constructor]. constructor; [|constructor]. destruct (e_beam e) as [[a b] c]. apply I10s_upto. cbn. lia.
    - rewrite Forall_map. eapply Forall_impl; [|apply (rows_le _ 8); lia]. intros r Hr. apply I10s_upto. exact Hr. }
  open_block Hb. unfold extract2412. rewrite block_drop by assumption. clear Eb Hl. cbv zeta. cbn [map skipn].
  match goal with |- context [map split ?x] => change (map split x) with (map split (@map (str * str) str (@fst str str) ps)) end.
  set (lines := map split (map fst ps)). assert (Hl : Forall (fun l => length l <= 8) lines) by (unfold lines; rewrite Forall_map; exact Hw). clearbody lines. clear H Hw.
  intro E. match type of E with try_any ?x _ = _ => destruct x as [out|ex] eqn:Ex end; [|destruct ex; discriminate E]. cbn [try_any] in E. injection E as E.
  destruct (loop2412 _ lines _) as [d1|] eqn:E1; [|discriminate]. cbn [rbind] in Ex. destruct (legacy d1 41 "triangle") as [d2|] eqn:E2; [|discriminate]. cbn [rbind] in Ex.
  assert (X1 : eights d1) by (eapply loop_eight; [exact E1|exact Hl|intros k vs Q; discriminate]).
  assert (X3 : eights out) by (eapply legacy_eight; [exact Ex|]; eapply legacy_eight; [exact E2|exact X1]).
  apply Exists_exists in Hx. destruct Hx as (e & Hi & Hn). subst out.
  assert (G : dget (read2412 l) (KI (e_desc e)) = Some (VList (map (fun e => VDict (elem_out e)) (with_desc (e_desc e) l)))).
  { unfold read2412. change (dget (typed l ++ (legacy2412 "triangle" 41 l ++ legacy2412 "quad" 44 l)) (KI (e_desc e)) = Some (VList (map (fun e => VDict (elem_out e)) (with_desc (e_desc e) l)))).
    rewrite dget_app, dget_typed. replace (existsb (Z.eqb (e_desc e)) (map e_desc l)) with true; [reflexivity|]. symmetry. apply existsb_exists. exists (e_desc e).
    split; [apply in_map; exact Hi|apply Z.eqb_refl]. }
  specialize (X3 _ _ G). rewrite Forall_forall in X3. specialize (X3 (VDict (elem_out e))). destruct X3 as (e' & ns & E' & En & Ln).
  { apply (in_map (fun e => VDict (elem_out e))). apply filter_In. split; [exact Hi|apply Z.eqb_refl]. }
  injection E' as <-. assert (En' : dget (elem_out e) (KS "nodes_nums") = Some (VList (map VInt (e_nodes e)))).
  { unfold elem_out. destruct (is_beam e); [destruct (e_beam e) as [[a b] c]|]; reflexivity. }
  rewrite En' in En. injection En as <-. rewrite map_length in Ln. lia.
Qed.
Print Assumptions C62_nodes_general_refuted.

(* ------------------------------------------------------------------ *)
(** ** 2414 *)

(** The header records put only their own names. *)
Lemma dput_none : forall d k v k', dget d k' = None -> k <> k' -> dget (dput d k v) k' = None.
Proof. intros d k v k' Hd Hk. rewrite dget_dput. destruct (key_eqb_spec k' k) as [E|]; [exfalso; apply Hk; symmetry; exact E|exact Hd]. Qed.
Lemma put_opt_none : forall d k v k', dget d (KS k') = None -> k <> k' -> dget (put_opt d k v) (KS k') = None.
Proof. intros d k [v|] k' Hd Hk; [|exact Hd]. apply dput_none; [exact Hd|]. intro E. injection E. exact Hk. Qed.
Lemma dupdate_none : forall e d k, dget d k = None -> ~ In k (map fst e) -> dget (dupdate d e) k = None.
Proof.
  induction e as [|[k0 v0] e IH]; intros d k Hd Hk; [exact Hd|]. change (dupdate d ((k0, v0) :: e)) with (dupdate (dput d k0 v0) e). cbn [map fst In] in Hk.
  apply IH; [apply dput_none; [exact Hd|]|]; intro Q; apply Hk; auto.
Qed.
Lemma mandatory_none : forall l d d' k, mandatory d l = Ok d' -> dget d (KS k) = None -> ~ In k (map fst l) -> dget d' (KS k) = None.
Proof.
  induction l as [|[k0 [t s]] l IH]; intros d d' k E Hd Hk; cbn [mandatory] in E; [injection E as <-; exact Hd|].
  destruct (field_val t s) as [v|]; [|discriminate]. cbn [rbind] in E. cbn [map fst In] in Hk. eapply IH; [exact E| |auto]. apply put_opt_none; auto.
Qed.
Lemma optional_none : forall l d d' k, optional d l = Ok d' -> dget d (KS k) = None -> ~ In k (map fst l) -> dget d' (KS k) = None.
Proof.
  induction l as [|[k0 [t s]] l IH]; intros d d' k E Hd Hk; cbn [optional] in E; [injection E as <-; exact Hd|]. cbn [map fst In] in Hk.
  destruct (field_val t s) as [v|[]]; try discriminate; (eapply IH; [exact E| |auto]); [apply put_opt_none; auto|].
  apply dput_none; [exact Hd|]. intro Q. injection Q. auto.
Qed.
Lemma combine_fst_in : forall A B (l : list A) (m : list B) a, In a (map fst (combine l m)) -> In a l.
Proof. intros A B l m a H. apply in_map_iff in H as ([x y] & <- & H). eapply in_combine_l. exact H. Qed.
Lemma header_line_none : forall line m w t names d k, parse_header_line line m w t names = Ok d -> ~ In k names -> dget d (KS k) = None.
Proof.
  intros line m w t names d k E Hk. unfold parse_header_line in E. cbv zeta in E. destruct (_ || _); [discriminate|]. destruct (Nat.ltb _ _); [discriminate|].
  set (all := combine names _) in E. assert (Hall : ~ In k (map fst all)) by (intro Q; apply Hk; eapply combine_fst_in; exact Q). clearbody all.
  rewrite <- (firstn_skipn m all), map_app in Hall. destruct (mandatory [] (firstn m all)) as [d1|] eqn:E1; [|discriminate]. cbn [rbind] in E.
  eapply optional_none; [exact E| |intro Q; apply Hall, in_or_app; auto]. eapply mandatory_none; [exact E1|reflexivity|intro Q; apply Hall, in_or_app; auto].
Qed.
Lemma dupdate_dget_none : forall e d k, dget d k = None -> dget e k = None -> dget (dupdate d e) k = None.
Proof. intros e d k Hd He. apply dupdate_none; [exact Hd|]. apply dget_None. exact He. Qed.
Lemma header_recs_none : forall lines l d d' k, header_recs lines d l = Ok d' -> dget d (KS k) = None -> ~ In k (flat_map h_names l) -> dget d' (KS k) = None.
Proof.
  intros lines l. induction l as [|h l IH]; intros d d' k E Hd Hk; cbn [header_recs] in E; [injection E as <-; exact Hd|].
  destruct (ln lines (h_line h)) as [line|]; [|discriminate]. cbn [rbind] in E.
  destruct (parse_header_line line (h_min h) (h_widths h) (h_types h) (h_names h)) as [e|] eqn:Ee; [|discriminate]. cbn [rbind] in E. cbn [flat_map] in Hk.
  eapply IH; [exact E| |intro Q; apply Hk, in_or_app; auto]. apply dupdate_dget_none; [exact Hd|]. eapply header_line_none; [exact Ee|]. intro Q. apply Hk, in_or_app. auto.
Qed.

(** A row of at most six values. *)
Definition six (v : pyval) : Prop := exists fs, v = vfloats fs /\ length fs <= 6.
Lemma row_six : forall ls rows, rmap float_row ls = Ok rows -> Forall (fun l => length (split l) <= 6) ls -> Forall six rows.
Proof.
  intros ls rows E H. rewrite Forall_forall in *. intros v Hv. destruct (rmap_in _ _ _ _ _ E v Hv) as (s & Hs & Es). unfold float_row in Es.
  destruct (parse_floats (split s)) as [fs|] eqn:Ef; [|discriminate]. injection Es as <-. exists fs. split; [reflexivity|].
  rewrite (rmap_length _ _ _ _ _ Ef). apply H. exact Hs.
Qed.
Lemma every_in : forall A (l : list A) start step a, In a (every start step l) -> In a l.
Proof.
  intros A l. unfold every. induction l as [|x l IH]; intros start step a Hi; [exact Hi|]. destruct start as [|k]; cbn [every_aux] in Hi.
  - destruct Hi as [->|Hi]; [left; reflexivity|right; eapply IH; exact Hi].
  - right. eapply IH. exact Hi.
Qed.
Lemma slice_in : forall A (l : list A) i j a, In a (py_slice i j l) -> In a l.
Proof. intros A l i j a Hi. unfold py_slice, slice in Hi. rewrite <- (firstn_skipn (Z.to_nat (norm_bound (Z.of_nat (length l)) i)) l). apply in_or_app. right.
  match type of Hi with In _ (firstn ?n ?m) => rewrite <- (firstn_skipn n m) end. apply in_or_app. left. exact Hi. Qed.
Lemma sub_all : forall A (P : A -> Prop) l m, (forall a, In a m -> In a l) -> Forall P l -> Forall P m.
Proof. intros A P l m H F. rewrite Forall_forall in *. auto. Qed.
Definition sixes (v : pyval) : Prop := exists rows, v = VList rows /\ Forall six rows.
Lemma loop_six : forall fuel lines li s s', loop2414 fuel lines li s = Ok s' -> Forall (fun l => length (split l) <= 6) lines -> Forall sixes (s_da s) -> Forall sixes (s_da s').
Proof.
  induction fuel as [|fuel IH]; intros lines li s s' E Hl Hs; cbn [loop2414] in E; (destruct (li <? Z.of_nat (length lines))%Z; [|injection E as <-; exact Hs]); [discriminate|].
  repeat match type of E with (do _ <- ?x ;; _) = Ok _ => destruct x as [?|] eqn:?; [cbn [rbind] in E; cbv zeta in E|discriminate E] end.
  eapply IH; [exact E|exact Hl|]. cbn [s_da]. apply Forall_app. split; [exact Hs|]. constructor; [|constructor]. eexists. split; [reflexivity|].
  eapply row_six; [eassumption|]. eapply sub_all; [|exact Hl]. intros x Hx. eapply slice_in. exact Hx.
Qed.
Definition held (k : string) (P : pyval -> Prop) (d : dict) : Prop := forall vs, dget d (KS k) = Some (VList vs) -> Forall P vs.
Definition held3 (d : dict) : Prop := held "data_at_node" six d /\ held "data_at_element" six d /\ held "data_at_nodes_on_element" sixes d.
Definition none3 (d : dict) : Prop := dget d (KS "data_at_node") = None /\ dget d (KS "data_at_element") = None /\ dget d (KS "data_at_nodes_on_element") = None.
Lemma none_held : forall d, none3 d -> held3 d.
Proof. intros d (H1 & H2 & H3). unfold held3, held. rewrite H1, H2, H3. repeat split; discriminate. Qed.
Lemma freq_none : forall d toks d', freq_data d toks = Ok d' -> none3 d -> none3 d'.
Proof.
  intros d toks d' E (H1 & H2 & H3). unfold freq_data in E.
  repeat match type of E with (do _ <- ?x ;; _) = Ok _ => destruct x as [?|] eqn:?; [cbn [rbind] in E; cbv zeta in E|discriminate E] end.
  destruct (py_eqZ _ 5); [|injection E as <-; repeat split; assumption].
  destruct (parse_floats toks) as [vs|]; [|discriminate]. cbn [rbind] in E. destruct (_ <? 0)%Z; [discriminate|].
  repeat match type of E with (do _ <- ?x ;; _) = Ok _ => match x with if _ then _ else _ => fail 1 | _ => destruct x as [?|] eqn:?; [cbn [rbind] in E; cbv zeta in E|discriminate E] end end.
  match type of E with context [dupdate d ?e] => set (d0 := dupdate d e) in E end.
  assert (N0 : none3 d0) by (repeat split; apply dupdate_none; try assumption; intros [Q|[Q|[]]]; discriminate Q). clearbody d0.
  assert (N : forall d k v, none3 d -> k = "y" \/ k = "z" -> none3 (dput d (KS k) v)) by (intros d1 k v (Q1 & Q2 & Q3) [-> | ->]; repeat split; apply dput_none; try assumption; discriminate).
  destruct (2 <=? _)%Z.
  - match type of E with (do _ <- (do _ <- ?x ;; _) ;; _) = _ => destruct x; [|discriminate] end. cbn [rbind] in E. destruct (3 <=? _)%Z; [|injection E as <-; apply N; auto].
    match type of E with (do _ <- ?x ;; _) = _ => destruct x; [|discriminate] end. injection E as <-. apply N; auto.
  - cbn [rbind] in E. destruct (3 <=? _)%Z; [|injection E as <-; exact N0].
    match type of E with (do _ <- ?x ;; _) = _ => destruct x; [|discriminate] end. injection E as <-. apply N; auto.
Qed.
Lemma loc_held : forall fuel d ls d', loc_data fuel d ls = Ok d' -> none3 d -> Forall (fun l => length (split l) <= 6) ls -> held3 d'.
Proof.
  intros fuel d ls d' E N Hl. unfold loc_data in E. destruct (ix d "dataset_location") as [loc|]; [|discriminate]. cbn [rbind] in E.
  assert (H1 : Forall (fun l => length (split l) <= 6) (every 1 2 ls)) by (eapply sub_all; [|exact Hl]; intros a; apply every_in).
  destruct N as (N1 & N2 & N3). destruct (py_eqZ loc 1); [|destruct (py_eqZ loc 2); [|destruct (py_eqZ loc 3); [|injection E as <-; apply none_held; repeat split; assumption]]].
  - repeat match type of E with (do _ <- ?x ;; _) = Ok _ => destruct x as [?|] eqn:?; [cbn [rbind] in E|discriminate E] end. injection E as <-.
    unfold held3, held, dupdate; cbn [fold_left fst snd]; rewrite !dget_dput; cbn [key_eqb String.eqb Ascii.eqb Bool.eqb]; rewrite ?N1, ?N2, ?N3. 
    split; [|split; intros vs Q; discriminate Q]. intros vs Q. injection Q as <-. eapply row_six; eassumption.
  - repeat match type of E with (do _ <- ?x ;; _) = Ok _ => destruct x as [?|] eqn:?; [cbn [rbind] in E|discriminate E] end. injection E as <-.
    unfold held3, held, dupdate; cbn [fold_left fst snd]; rewrite !dget_dput; cbn [key_eqb String.eqb Ascii.eqb Bool.eqb]; rewrite ?N1, ?N2, ?N3.
    split; [intros vs Q; discriminate Q|split; [|intros vs Q; discriminate Q]]. intros vs Q. injection Q as <-. eapply row_six; eassumption.
  - repeat match type of E with (do _ <- ?x ;; _) = Ok _ => destruct x as [?|] eqn:?; [cbn [rbind] in E|discriminate E] end. injection E as <-.
    unfold held3, held, dupdate; cbn [fold_left fst snd]; rewrite !dget_dput; cbn [key_eqb String.eqb Ascii.eqb Bool.eqb]; rewrite ?N1, ?N2, ?N3.
    split; [intros vs Q; discriminate Q|split; [intros vs Q; discriminate Q|]]. intros vs Q. injection Q as <-. eapply loop_six; [eassumption|exact Hl|constructor].
Qed.
Lemma fields_none : forall A k ks (f : A -> pyval) l, ~ In k ks -> dget (fields_out ks f l) (KS k) = None.
Proof.
  intros A k ks f l Hk. apply dget_None. unfold fields_out. intro Q. apply combine_fst_in in Q. apply in_map_iff in Q as (k' & E & Q). injection E as ->. auto.
Qed.
Definition long (a : ana) : Prop :=
  match n_body a with
  | ANodes rows | AElems rows => Exists (fun w => 6 < length (snd w)) rows
  | AOn els => Exists (fun e => Exists (fun row => 6 < length row) (o_rows e)) els
  | AFreq _ | ANone => False
  end.
Theorem C62_values_general_refuted : forall need room a block ps ho, block_lines block ps ->
  Forall2 (line_of false need room) (map fst ps) (documented (X2414 a)) -> length (n_ids a) = 5 -> long a ->
  extract_set 2414 block ho <> Ok (reading ho (X2414 a)).
Proof.
  intros need room a block ps ho Hb H Lid Hlong. unfold long in Hlong. cbn [documented reading] in *.
  open_block Hb. unfold extract2414, extract2414_fuel. rewrite block_keep by assumption. clear Eb. cbv zeta.
  apply lines_tail, lines_tail in Hl. unfold doc2414 in H.
  destruct (n_ids a) as [|i1 [|i2 [|i3 [|i4 [|i5 [|? ?]]]]]] eqn:Eids; try discriminate. cbn [map app] in H.
  next p2 H Hl. next p3 H Hl. next p4 H Hl. next p5 H Hl. next p6 H Hl. next p7 H Hl. next p8 H Hl. next p9 H Hl. next q1 H Hl. next q2 H Hl. next q3 H Hl. next q4 H Hl. next q5 H Hl.
  match goal with qs : list (str * str) |- _ => match type of Hl with lines_ok qs => rename qs into rs end end.
  set (fuel := 2 * _ + 2). clearbody fuel. cbn [map firstn skipn]. match goal with |- context [join ?l] => change (join l) with (text_of rs) end.
  match goal with |- context [header_recs ?h _ recs2414_head] => generalize h end. intro hd. rewrite split_lines by exact Hl.
  match goal with |- context [loc_data _ _ ?l] => change l with (@map (str * str) str (@fst str str) rs) end.
  assert (Hw : Forall (fun s => length (split s) <= 6) (map fst rs)).
  { eapply words_le; [exact H|]. destruct (n_body a) as [rows|rows|rows|els|]; [contradiction| | | |constructor]; apply Forall_flat; intros w _; (constructor; [first [split; [reflexivity|cbn; lia]|apply I10s_upto; cbn; lia]|]).
    - rewrite Forall_map. eapply Forall_impl; [|apply (rows_le _ 6); lia]. intros r Hr. apply E13s_upto. exact Hr.
    - rewrite Forall_map. eapply Forall_impl; [|apply (rows_le _ 6); lia]. intros r Hr. apply E13s_upto. exact Hr.
    - apply Forall_flat. intros row _. rewrite Forall_map. eapply Forall_impl; [|apply (rows_le _ 6); lia]. intros r Hr. apply E13s_upto. exact Hr. }
  generalize dependent (@map (str * str) str (@fst str str) rs). intros ls _ Hw. generalize (split (text_of rs)). intros toks EE.
  match type of EE with try_any ?x _ = _ => destruct x as [out|ex] eqn:Ex end; [|destruct ex; discriminate EE]. cbn [try_any] in EE. injection EE as EE.
  destruct (header_recs hd _ recs2414_head) as [d1|] eqn:D1; [|discriminate]. cbn [rbind] in Ex.
  assert (N1 : none3 d1) by (repeat split; (eapply header_recs_none; [exact D1|reflexivity|]); cbn; intro Q; repeat (destruct Q as [Q|Q]; [discriminate Q|]); exact Q).
  destruct (ix d1 "analysis_type") as [at_v|]; [|discriminate]. cbn [rbind] in Ex.
  assert (HH : held3 out).
  { destruct N1 as (Q1 & Q2 & Q3). destruct (py_eqZ at_v 5).
    - destruct (header_recs hd d1 recs2414_5) as [d2|] eqn:D2; [|discriminate]. cbn [rbind] in Ex. apply none_held. eapply freq_none; [exact Ex|].
      repeat split; (eapply header_recs_none; [exact D2|assumption|]); cbn; intro Q; repeat (destruct Q as [Q|Q]; [discriminate Q|]); exact Q.
    - destruct (header_recs hd d1 recs2414_n) as [d2|] eqn:D2; [|discriminate]. cbn [rbind] in Ex. eapply loc_held; [exact Ex| |exact Hw].
      repeat split; (eapply header_recs_none; [exact D2|assumption|]); cbn; intro Q; repeat (destruct Q as [Q|Q]; [discriminate Q|]); exact Q. }
  clear Ex D1. subst out. destruct HH as (HA & HB & HC). unfold held, read2414 in HA, HB, HC.
  assert (G : forall k, In k ["data_at_node"; "data_at_element"; "data_at_nodes_on_element"] -> dget (pre2414 a ++ recs_out a ++ out_body (n_nv a) (n_dt a) (n_body a)) (KS k) = dget (out_body (n_nv a) (n_dt a) (n_body a)) (KS k)).
  { intros k Hk. assert (Z1 : dget (pre2414 a) (KS k) = None).
    { unfold pre2414. rewrite !dget_app. rewrite !fields_none by (cbn [In] in *; intro Q; destruct Hk as [<-|[<-|[<-|[]]]]; cbn in Q; repeat (destruct Q as [Q|Q]; [discriminate Q|]); exact Q).
      destruct Hk as [<-|[<-|[<-|[]]]]; reflexivity. }
    assert (Z2 : dget (recs_out a) (KS k) = None).
    { unfold recs_out, k10, k11, k12, k13. rewrite !dget_app.
      rewrite !fields_none by (destruct (is_freq (n_body a)); intro Q; destruct Hk as [<-|[<-|[<-|[]]]]; cbn in Q; repeat (destruct Q as [Q|Q]; [discriminate Q|]); exact Q). reflexivity. }
    rewrite !dget_app, Z1, Z2. reflexivity. }
  rewrite !G in HA, HB, HC by (cbn; auto). clear G.
  assert (V : forall w : list float, six (frow w) -> length w <= 6).
  { intros w (fs & Q & Lf). unfold frow, vfloats in Q. injection Q as Q. apply (f_equal (@length pyval)) in Q. rewrite !map_length in Q. lia. }
  destruct (n_body a) as [rows|rows|rows|els|]; try contradiction; apply Exists_exists in Hlong as (w & Hi & Hw6).
  - specialize (HA _ eq_refl). rewrite Forall_map, Forall_forall in HA. specialize (V _ (HA w Hi)). lia.
  - specialize (HB _ eq_refl). rewrite Forall_map, Forall_forall in HB. specialize (V _ (HB w Hi)). lia.
  - specialize (HC _ eq_refl). rewrite Forall_map, Forall_forall in HC. destruct (HC w Hi) as (rows & Q & HR). injection Q as <-.
    apply Exists_exists in Hw6 as (row & Hr & Hw6). rewrite Forall_map, Forall_forall in HR. specialize (V _ (HR row Hr)). lia.
Qed.
Print Assumptions C62_values_general_refuted.
(** A brick of twenty nodes and a node with seven values, as they are drawn. *)
Definition drawn (x : content) : list (str * str) := map (fun fs => (concat (map (draw (dx_of x)) fs), [LF])) (documented x).
Definition first_line : str * str := (lit "    -1", [LF]).
Definition drawn_block (x : content) : str := text_of (first_line :: (type_text x, [LF]) :: drawn x).
Example C62_long_example :
  (block_lines (drawn_block (X2412 [brick])) (drawn (X2412 [brick])) /\
   Forall2 (line_of false sep_none anyroom) (map fst (drawn (X2412 [brick]))) (documented (X2412 [brick])) /\
   Exists (fun e => 8 < length (e_nodes e)) [brick]) /\
  (block_lines (drawn_block (X2414 a_seven)) (drawn (X2414 a_seven)) /\
   Forall2 (line_of false sep_none anyroom) (map fst (drawn (X2414 a_seven))) (documented (X2414 a_seven)) /\
   length (n_ids a_seven) = 5 /\ long a_seven).
Proof.
  split.
  - split; [exists first_line, (type_text (X2412 [brick]), [LF]); split; [vm_compute; reflexivity|vm_compute; repeat (apply Forall_cons; [split; [reflexivity|left; reflexivity]|]); apply Forall_nil]|].
    split; [|left; cbn; lia]. apply (chk_laid (X2412 [brick])).
    vm_compute; repeat match goal with |- _ /\ _ => split end; try exact Logic.I; try reflexivity; repeat constructor.
  - split; [exists first_line, (type_text (X2414 a_seven), [LF]); split; [vm_compute; reflexivity|vm_compute; repeat (apply Forall_cons; [split; [reflexivity|left; reflexivity]|]); apply Forall_nil]|].
    split; [|split; [reflexivity|left; cbn; lia]]. apply (chk_laid (X2414 a_seven)).
    vm_compute; repeat match goal with |- _ /\ _ => split end; try exact Logic.I; try reflexivity; repeat constructor.
Qed.
