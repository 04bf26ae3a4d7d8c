From Coq Require Import String List NArith ZArith Bool QArith Lia.
Import ListNotations.
From Verif Require Import PyBase PyNum PyVal Utf8 Tools Facts IntFacts QFacts FloatFacts FloatText DictFacts DsNodes DsHeaders DsGroups Ds55 Ds2414 Uff
  Container Append Utf8Facts Lines Cells PropNumeral Accept PropAccept.
From Coq Require Import Lia.
Open Scope string_scope.
Open Scope list_scope.
Open Scope nat_scope.
(* ------------------------------------------------------------------ *)
(** ** Elements and groups *)

(** A value Python finds equal to the integer [n > 0]. *)
Definition equals (v : pyval) (n : Z) : Prop := v = VInt n \/ v = VFloat (float_of_Z n) \/ v = VBool true /\ n = 1%Z.
Lemma f_eqb_finite : forall f m e, f_eqb f (S754_finite false m e) = true <-> f = S754_finite false m e.
Proof.
  intros f m e. unfold f_eqb, SFeqb, SFcompare. destruct f as [s|s| |s m' e']; try (split; discriminate); [destruct s; split; discriminate|].
  destruct s; [split; discriminate|]. destruct (Z.compare_spec e' e) as [->|L|L]; [|split; [discriminate|intro E; injection E; lia]..].
  change (Pos.compare_cont Eq m' m) with (Pos.compare m' m). destruct (Pos.compare_spec m' m) as [->|L|L]; [split; reflexivity|split; [discriminate|intro E; injection E; lia]..].
Qed.
Definition small_ints : list Z := [1; 2; 3; 5; 7; 11]%Z.
Lemma eqZ_iff : forall v n, In n small_ints -> integral v -> (py_eqZ v n = true <-> equals v n).
Proof.
  intros v n Hn Hv. assert (F : exists m e, float_of_Z n = S754_finite false m e).
  { cbn in Hn. repeat (destruct Hn as [<-|Hn]; [eexists _, _; vm_compute; reflexivity|]). destruct Hn. }
  destruct F as (m & e & F). assert (P : (0 < n)%Z) by (cbn in Hn; lia). unfold equals.
  destruct v; try destruct Hv; cbn [py_eqZ].
  - destruct b.
    + rewrite Z.eqb_eq. split; [intros <-; right; right; auto|intros [H|[H|[_ H]]]; try discriminate; auto].
    + rewrite Z.eqb_eq. split; [lia|]. intros [H|[H|[H _]]]; discriminate.
  - rewrite Z.eqb_eq. split; [intros <-; left; reflexivity|intros [H|[H|[H _]]]; try discriminate; congruence].
  - rewrite F, f_eqb_finite. split; [intros ->; right; left; reflexivity|intros [H|[H|[H _]]]; try discriminate; congruence].
Qed.

Lemma good_vix : forall k v n, good k (vix v n) <-> exists h, v = VDict h /\ field_ok h (n, k, Must).
Proof.
  intros k v n. unfold vix. destruct v; try (split; [intros (x & Ex & _); discriminate|intros (h & E & _); discriminate]).
  rewrite good_ix. split; [eauto|]. intros (h & E & H). injection E as <-. exact H.
Qed.
Lemma good_ints : forall r, good Ints r <-> exists v l, r = Ok v /\ to_seq v = Ok l /\ Forall integral l.
Proof.
  intro r. unfold good. cbn [takes]. split.
  - intros (v & -> & l & El & F). exists v, l. rewrite to_seq_entries, El. auto.
  - intros (v & l & -> & El & F). exists v. split; [reflexivity|]. exists l. split; [|exact F]. rewrite to_seq_entries in El. destruct (entries v); [congruence|discriminate].
Qed.
Lemma ok_nl : ok_item (txt "\n" []).
Proof. apply ok_txt. cbn. split; [left; reflexivity|exact Logic.I]. Qed.

Definition beam_fields := ["beam_orientation"; "beam_foreend_cross"; "beam_aftend_cross"].
Definition table2412 := fields Must Int ["element_nums"; "fe_descriptor"; "phys_table"; "mat_table"; "color"; "num_nodes"] ++ fields Must Ints ["nodes_nums"].
Definition element_ok (e : pyval) : Prop := exists g, e = VDict g /\ Forall (field_ok g) table2412
  /\ (forall v, dget g (KS "fe_descriptor") = Some v -> equals v 11 -> Forall (field_ok g) (fields Must Int beam_fields)).
Definition elem_items (g : dict) : list item :=
  txt "%10i%10i%10i%10i%10i%10i\n" [ix g "element_nums"; ix g "fe_descriptor"; ix g "phys_table"; ix g "mat_table"; ix g "color"; ix g "num_nodes"]
  :: match ix g "fe_descriptor" with
     | Ok v => if py_eqZ v 11 then [txt "%10i%10i%10i\n" [ix g "beam_orientation"; ix g "beam_foreend_cross"; ix g "beam_aftend_cross"]] else []
     | Err ex => [WTxt (Err ex)]
     end
  ++ match (do v <- ix g "nodes_nums" ;; to_seq v) with
     | Ok ns => map (fun n => txt "%10i" [Ok n]) ns
     | Err ex => [WTxt (Err ex)]
     end
  ++ [txt "\n" []].
Lemma elem_items_eq : forall g, elem2412 (VDict g) = elem_items g.
Proof. reflexivity. Qed.
Lemma ok_six : forall a b c d e f, ok_item (txt "%10i%10i%10i%10i%10i%10i\n" [a; b; c; d; e; f]) <-> Forall (good Int) [a; b; c; d; e; f].
Proof.
  intros a b c d e f. rewrite ok_txt. change (parse_fmt SNorm "%10i%10i%10i%10i%10i%10i\n") with (repeat (FInt 10) 6 ++ [FLit LF]). cbn [repeat app fits kind_of]. split.
  - intros (A1 & A2 & A3 & A4 & A5 & A6 & _). repeat (apply Forall_cons || apply Forall_nil); assumption.
  - intro A. repeat match goal with H : Forall _ (_ :: _) |- _ => inversion H; clear H; subst end. repeat split; try assumption. left. reflexivity.
Qed.
Lemma ok_three : forall a b c, ok_item (txt "%10i%10i%10i\n" [a; b; c]) <-> Forall (good Int) [a; b; c].
Proof.
  intros a b c. rewrite ok_txt. change (parse_fmt SNorm "%10i%10i%10i\n") with (repeat (FInt 10) 3 ++ [FLit LF]). cbn [repeat app fits kind_of]. split.
  - intros (A1 & A2 & A3 & _). repeat (apply Forall_cons || apply Forall_nil); assumption.
  - intro A. repeat match goal with H : Forall _ (_ :: _) |- _ => inversion H; clear H; subst end. repeat split; try assumption. left. reflexivity.
Qed.
Lemma musts : forall g l, Forall (good Int) (map (ix g) l) <-> Forall (field_ok g) (fields Must Int l).
Proof. intros g l. unfold fields. rewrite !List.Forall_map. split; apply Forall_impl; intros k Hk; apply good_ix; exact Hk. Qed.
Lemma nodes_ok : forall r, Forall ok_item (match (do v <- r ;; to_seq v) with Ok ns => map (fun n => txt "%10i" [Ok n]) ns | Err ex => [WTxt (Err ex)] end) <-> good Ints r.
Proof.
  intro r. rewrite good_ints. split.
  - destruct r as [v|]; cbn [rbind]; [|intro H; apply not_ok1 in H; destruct H]. destruct (to_seq v) as [ns|] eqn:E; [|intro H; apply not_ok1 in H; destruct H].
    intro H. exists v, ns. split; [reflexivity|]. split; [exact E|]. rewrite List.Forall_map in H. revert H. apply Forall_impl. intros x Hx. apply ok_txt in Hx.
    change (parse_fmt SNorm "%10i") with [FInt 10] in Hx. cbn [fits kind_of] in Hx. destruct Hx as [Hx _]. apply good_ok in Hx. exact Hx.
  - intros (v & ns & -> & E & F). cbn [rbind]. rewrite E. rewrite List.Forall_map. revert F. apply Forall_impl. intros x Hx. apply ok_txt.
    change (parse_fmt SNorm "%10i") with [FInt 10]. cbn [fits kind_of]. split; [apply good_ok; exact Hx|exact Logic.I].
Qed.
Lemma elem_items_iff : forall g, Forall ok_item (elem_items g) <-> Forall (field_ok g) table2412
  /\ (forall v, dget g (KS "fe_descriptor") = Some v -> equals v 11 -> Forall (field_ok g) (fields Must Int beam_fields)).
Proof.
  intro g. unfold elem_items. rewrite Forall_cons_iff, !Forall_app, ok_six, nodes_ok. unfold table2412. rewrite Forall_app, <- !musts.
  assert (X : good Ints (ix g "nodes_nums") <-> Forall (field_ok g) (fields Must Ints ["nodes_nums"])).
  { rewrite good_ix. unfold fields. cbn [map]. rewrite Forall_cons_iff. split; [intro; split; [assumption|constructor]|tauto]. }
  rewrite X. clear X. assert (N : Forall ok_item [txt "\n" []]) by (constructor; [apply ok_nl|constructor]).
  set (six := Forall (good Int) _). change (Forall (good Int) (map (ix g) ["element_nums"; "fe_descriptor"; "phys_table"; "mat_table"; "color"; "num_nodes"])) with six.
  assert (Y : six -> (Forall ok_item (match ix g "fe_descriptor" with
       | Ok v => if py_eqZ v 11 then [txt "%10i%10i%10i\n" [ix g "beam_orientation"; ix g "beam_foreend_cross"; ix g "beam_aftend_cross"]] else []
       | Err ex => [WTxt (Err ex)] end) <-> forall v, dget g (KS "fe_descriptor") = Some v -> equals v 11 -> Forall (good Int) (map (ix g) beam_fields))).
  { intro S. assert (D : exists v, dget g (KS "fe_descriptor") = Some v /\ integral v).
    { unfold six in S. inversion S as [|? ? _ S']; subst. inversion S' as [|? ? S1 _]; subst. apply good_ix in S1. unfold field_ok in S1. cbn [fst snd takes] in S1.
      destruct (dget g (KS "fe_descriptor")) as [v|]; [eauto|discriminate]. }
    destruct D as (v & Hv & Hi). unfold ix at 1. rewrite Hv. cbn [of_option]. destruct (py_eqZ v 11) eqn:E.
    - rewrite Forall_cons_iff, ok_three. apply eqZ_iff in E; [|cbn; tauto|exact Hi]. split.
      + intros [H _] v' Ev _. exact H.
      + intro H. split; [apply (H v eq_refl E)|constructor].
    - split; [|constructor]. intros _ v' Ev He. injection Ev as <-. apply eqZ_iff in He; [|cbn; tauto|exact Hi]. congruence. }
  split.
  - intros (H1 & H2 & H3 & _). split; [auto|]. intros v Hv He. apply musts. exact (proj1 (Y H1) H2 v Hv He).
  - intros ((H1 & H2) & H3). split; [exact H1|]. split; [|auto]. apply (Y H1). intros v Hv He. apply musts. exact (H3 v Hv He).
Qed.
Lemma element_iff : forall e, Forall ok_item (elem2412 e) <-> element_ok e.
Proof.
  intro e. split.
  - intro H. assert (G : exists g, e = VDict g).
    { destruct e; try (exfalso; unfold elem2412 in H; inversion H as [|? ? H1 _]; subst; apply ok_six in H1; inversion H1 as [|? ? (v & E & _) _]; subst; discriminate). eauto. }
    destruct G as [g ->]. exists g. split; [reflexivity|]. rewrite elem_items_eq in H. apply elem_items_iff. exact H.
  - intros (g & -> & H). rewrite elem_items_eq. apply elem_items_iff. exact H.
Qed.
Theorem C72_2412 : forall c m fd file u d, dget d (KS "type") = Some (VInt 2412) -> dget d (KS "data") = None ->
  (w_exc (write_set c m fd file u d) = None <-> forall k v, In (KI k, v) d -> exists l, entries v = Some l /\ Forall element_ok l).
Proof.
  intros c m fd file u d Ht Hd. rewrite (accepted _ _ _ _ _ _ _ Ht Hd). change (write_dispatch c m fd (VInt 2412) d) with (write2412 d). unfold write2412. cbn [wp_items].
  rewrite Forall_cons_iff, ok_hdr, Forall_snoc, ok_end, List.Forall_flat_map, Forall_forall.
  assert (X : forall (k : Z) v, Forall ok_item (match to_seq v with Ok es => flat_map elem2412 es | Err e => [WTxt (Err e)] end) <-> exists l, entries v = Some l /\ Forall element_ok l).
  { intros _ v. rewrite to_seq_entries. destruct (entries v) as [l|].
    - rewrite List.Forall_flat_map. split.
      + intro H. exists l. split; [reflexivity|]. revert H. apply Forall_impl. intro e. apply element_iff.
      + intros (l' & E & H). injection E as <-. revert H. apply Forall_impl. intro e. apply element_iff.
    - split; [intro H; apply not_ok1 in H; destruct H|]. intros (l & E & _). discriminate. }
  split.
  - intros (_ & H & _) k v Hin. specialize (H _ Hin). cbn [fst snd] in H. apply (X k v). exact H.
  - intro H. split; [exact Logic.I|]. split; [|exact Logic.I]. intros [[k|k] v] Hin; cbn [fst snd]; [constructor|]. apply (X k v), (H k v Hin).
Qed.
Print Assumptions C72_2412.

(** *** Groups *)

Definition group_sets := ["active_constraint_set_no_for_group"; "active_restraint_set_no_for_group"; "active_load_set_no_for_group";
  "active_dof_set_no_for_group"; "active_temperature_set_no_for_group"; "active_contact_set_no_for_group"].
Definition entity_columns := ["entity_type_code"; "entity_tag"; "entity_node_leaf_id"; "entity_component_id"].
Definition group_ok (v : pyval) : Prop := exists g, v = VDict g
  /\ Forall (field_ok g) (fields Must Int ("group_number" :: group_sets) ++ fields Must Text ["group_name"])
  /\ exists n, counted g "entity_type_code" n /\ (n = 0 \/ Forall (column_ok g n) (fields Must Int entity_columns)).
Lemma len_arg_ok : forall d k, good Int (len_arg (ix d k)) <-> exists n, counted d k n.
Proof.
  intros d k. unfold good, len_arg. split.
  - intros (v & E & _). destruct (ix d k) as [x|] eqn:Ex; [|discriminate]. cbn [rbind] in E. destruct (py_len x) as [n|] eqn:En; [|discriminate].
    exists n. apply counted_len. rewrite Ex. exact En.
  - intros [n H]. apply counted_len in H. destruct (ix d k) as [x|]; [|discriminate]. cbn [rbind] in *. rewrite H. cbn [rbind]. eexists. split; [reflexivity|exact Logic.I].
Qed.
Lemma pairs_cover : forall (P : nat -> Prop) n, (forall j, j < (n + 1) / 2 -> P (2 * j) /\ (1 < n - 2 * j -> P (2 * j + 1))) <-> forall i, i < n -> P i.
Proof.
  intros P n. pose proof (Nat.div_mod (n + 1) 2 ltac:(lia)) as Dn. pose proof (Nat.mod_upper_bound (n + 1) 2 ltac:(lia)) as Mn. split.
  - intros H i Hi. pose proof (Nat.div_mod i 2 ltac:(lia)) as Di. pose proof (Nat.mod_upper_bound i 2 ltac:(lia)) as Mi.
    destruct (H (i / 2)) as [H1 H2]; [lia|]. destruct (Nat.eq_dec (i mod 2) 0) as [E|E].
    + replace i with (2 * (i / 2)) by lia. exact H1.
    + replace i with (2 * (i / 2) + 1) by lia. apply H2. lia.
  - intros H j Hj. split; [apply H; lia|]. intro. apply H. lia.
Qed.
Definition row_ok (g : dict) (i : nat) : Prop := Forall (fun k => good Int (at_ (ix g k) (Z.of_nat i))) entity_columns.
Lemma ent_lines_iff : forall g n, Forall ok_item (ent_lines (VDict g) n) <-> forall i, i < n -> row_ok g i.
Proof.
  intros g n. rewrite <- pairs_cover. unfold ent_lines. rewrite List.Forall_map, Forall_forall.
  assert (X : forall j, ok_item (if Nat.ltb 1 (n - 2 * j) then txt "%10i%10i%10i%10i%10i%10i%10i%10i\n" (ent_fields (VDict g) (2 * j) ++ ent_fields (VDict g) (2 * j + 1))
       else txt "%10i%10i%10i%10i\n" (ent_fields (VDict g) (2 * j))) <-> row_ok g (2 * j) /\ (1 < n - 2 * j -> row_ok g (2 * j + 1))).
  { intro j. unfold ent_fields, ent_keys, row_ok, entity_columns. cbn [map vix app]. generalize (2 * j) as a. intro a. generalize (a + 1) as b. intro b.
    destruct (Nat.ltb_spec 1 (n - a)) as [L|L]; rewrite ok_txt.
    - change (parse_fmt SNorm "%10i%10i%10i%10i%10i%10i%10i%10i\n") with (repeat (FInt 10) 8 ++ [FLit LF]). cbn [repeat app fits kind_of]. split.
      + intros (A1 & A2 & A3 & A4 & B1 & B2 & B3 & B4 & _). split; [|intros _]; repeat constructor; assumption.
      + intros [A B]. specialize (B L). repeat match goal with H : Forall _ (_ :: _) |- _ => inversion H; clear H; subst end. repeat split; try assumption. left. reflexivity.
    - change (parse_fmt SNorm "%10i%10i%10i%10i\n") with (repeat (FInt 10) 4 ++ [FLit LF]). cbn [repeat app fits kind_of]. split.
      + intros (A1 & A2 & A3 & A4 & _). split; [repeat constructor; assumption|lia].
      + intros [A _]. repeat match goal with H : Forall _ (_ :: _) |- _ => inversion H; clear H; subst end. repeat split; try assumption. left. reflexivity. }
  split.
  - intros H j Hj. apply X. apply (H j), in_seq. lia.
  - intros H j Hj. apply in_seq in Hj. apply X, H. lia.
Qed.
Lemma columns_iff : forall g n, (forall i, i < n -> row_ok g i) <-> n = 0 \/ Forall (column_ok g n) (fields Must Int entity_columns).
Proof.
  intros g n. destruct (Nat.eq_dec n 0) as [->|N]; [split; [left; reflexivity|intros _ i Hi; lia]|]. assert (P : 0 < n) by lia.
  assert (X : forall k, (forall i, i < n -> good Int (at_ (ix g k) (Z.of_nat i))) <-> column_ok g n (k, Int, Must)).
  { intro k. exact (column_opt g [] [] Int k n Must P (Forall2_nil _) eq_refl). }
  unfold row_ok. split.
  - intro H. right. unfold fields. apply List.Forall_map, Forall_forall. intros k Hk. apply X. intros i Hi. specialize (H i Hi). rewrite Forall_forall in H. apply H, Hk.
  - intros [->|H] i Hi; [lia|]. unfold fields in H. rewrite List.Forall_map, Forall_forall in H. apply Forall_forall. intros k Hk. apply X; [apply H, Hk|exact Hi].
Qed.
Lemma group_iff : forall v, Forall ok_item (group2467 v) <-> group_ok v.
Proof.
  intro v. unfold group2467. rewrite !Forall_cons_iff. split.
  - intros (H1 & H2 & H3). rewrite ok_txt in H1, H2. change (parse_fmt SNorm "%10i%10i%10i%10i%10i%10i%10i%10i\n") with (repeat (FInt 10) 8 ++ [FLit LF]) in H1.
    change (parse_fmt SNorm "%-40s\n") with [FStr true 40; FLit LF] in H2. unfold set_keys in H1. cbn [repeat map app fits kind_of] in H1, H2.
    destruct H1 as (A1 & A2 & A3 & A4 & A5 & A6 & A7 & A8 & _). destruct H2 as (A9 & _).
    assert (G : exists g, v = VDict g) by (destruct A1 as (x & E & _); destruct v; try discriminate; eauto). destruct G as [g ->]. exists g. split; [reflexivity|].
    cbn [vix] in *. rewrite good_ix in A1, A2, A3, A4, A5, A6, A7, A9. split; [unfold fields, group_sets; cbn [map app]; repeat constructor; assumption|].
    destruct (do v <- ix g "entity_type_code" ;; py_len v) as [n|e] eqn:En; [|apply not_ok1 in H3; destruct H3]. exists n. split; [apply counted_len; exact En|].
    apply columns_iff, ent_lines_iff. exact H3.
  - intros (g & -> & T & n & Hn & C). cbn [vix]. unfold fields, group_sets in T. cbn [map app] in T. repeat match goal with H : Forall _ (_ :: _) |- _ => inversion H; clear H; subst end.
    repeat match goal with H : field_ok g _ |- _ => apply good_ix in H end.
    rewrite !ok_txt. change (parse_fmt SNorm "%10i%10i%10i%10i%10i%10i%10i%10i\n") with (repeat (FInt 10) 8 ++ [FLit LF]). change (parse_fmt SNorm "%-40s\n") with [FStr true 40; FLit LF].
    unfold set_keys. cbn [repeat map app fits kind_of]. cbn [vix]. split; [|split].
    + repeat split; try assumption; [apply len_arg_ok; eauto|left; reflexivity].
    + split; [assumption|]. split; [left; reflexivity|exact Logic.I].
    + apply counted_len in Hn. rewrite Hn. apply ent_lines_iff, columns_iff. exact C.
Qed.
Theorem C72_2467 : forall c m fd file u d, dget d (KS "type") = Some (VInt 2467) -> dget d (KS "data") = None ->
  (w_exc (write_set c m fd file u d) = None <-> exists v l, dget d (KS "groups") = Some v /\ entries v = Some l /\ Forall group_ok l).
Proof.
  intros c m fd file u d Ht Hd. rewrite (accepted _ _ _ _ _ _ _ Ht Hd). change (write_dispatch c m fd (VInt 2467) d) with (write2467 d). unfold write2467. cbn [wp_items].
  assert (E : ix (opt_fields d group_defaults) "groups" = ix d "groups").
  { unfold ix. rewrite opt_fields_get. change (dget group_defaults (KS "groups")) with (@None pyval). destruct (dget d (KS "groups")); reflexivity. }
  rewrite E. clear E. rewrite Forall_cons_iff. assert (H0 : ok_item (txt "%6i\n%6i\n" [Tools.I (-1); Tools.I 2467])) by (eexists; split; [vm_compute; reflexivity|repeat constructor]).
  unfold ix. destruct (dget d (KS "groups")) as [v|]; cbn [of_option rbind].
  - rewrite to_seq_entries. destruct (entries v) as [l|] eqn:El.
    + rewrite Forall_snoc, ok_end, List.Forall_flat_map. split.
      * intros (_ & H & _). exists v, l. split; [reflexivity|]. split; [exact El|]. revert H. apply Forall_impl. intro g. apply group_iff.
      * intros (v' & l' & Ev & El' & H). injection Ev as <-. rewrite El in El'. injection El' as <-. split; [exact H0|]. split; [|exact Logic.I]. revert H. apply Forall_impl. intro g. apply group_iff.
    + split; [intros [_ H]; apply not_ok1 in H; destruct H|]. intros (v' & l' & Ev & El' & H). congruence.
  - split; [intros [_ H]; apply not_ok1 in H; destruct H|]. intros (v' & l' & Ev & _). discriminate.
Qed.
Print Assumptions C72_2467.

(** Type 2429 writes the entities four to a line; the last line takes every fourth
    entity from the first on, as many as are left over. *)
Definition positions (n : nat) : list nat := seq 0 (4 * (n / 4)) ++ map (fun i => i * 4) (seq 0 (n mod 4)).
Definition place_ok (d : dict) (k : string) (i : nat) : Prop := exists v l x, dget d (KS k) = Some v /\ entries v = Some l /\ nth_error l i = Some x /\ integral x.
Lemma place_iff : forall d k i, good Int (at_ (ix d k) (Z.of_nat i)) <-> place_ok d k i.
Proof.
  intros d k i. rewrite good_at. unfold place_ok, ix. cbn [takes]. destruct (dget d (KS k)) as [w|]; cbn [of_option].
  - split; intros (v & l & x & E & H); exists v, l, x; (split; [congruence|exact H]).
  - split; intros (v & l & x & E & H); discriminate.
Qed.
Lemma fours_cover : forall (P : nat -> Prop) q, (forall i, i < q -> P (i * 4) /\ P (i * 4 + 1) /\ P (i * 4 + 2) /\ P (i * 4 + 3)) <-> forall i, i < 4 * q -> P i.
Proof.
  intros P q. split.
  - intros H i Hi. pose proof (Nat.div_mod i 4 ltac:(lia)) as Di. pose proof (Nat.mod_upper_bound i 4 ltac:(lia)) as Mi. destruct (H (i / 4)) as (H0 & H1 & H2 & H3); [lia|].
    destruct (i mod 4) as [|[|[|[|k]]]] eqn:E; [replace i with (i / 4 * 4) by lia|replace i with (i / 4 * 4 + 1) by lia|replace i with (i / 4 * 4 + 2) by lia|replace i with (i / 4 * 4 + 3) by lia|lia]; assumption.
  - intros H i Hi. repeat split; apply H; lia.
Qed.
Theorem C72_2429 : forall c m fd file u d, dget d (KS "type") = Some (VInt 2429) -> dget d (KS "data") = None ->
  (w_exc (write_set c m fd file u d) = None <->
   Forall (field_ok d) (fields Must Int ["group_number"] ++ fields May Int group_sets ++ fields Must Text ["group_name"])
   /\ exists n, counted d "entity_type_code" n /\ Forall (fun i => place_ok d "entity_type_code" i /\ place_ok d "entity_tag" i) (positions n)).
Proof.
  intros c m fd file u d Ht Hd. rewrite (accepted _ _ _ _ _ _ _ Ht Hd). change (write_dispatch c m fd (VInt 2429) d) with (write2429 d). unfold write2429. cbn [wp_items].
  assert (E : forall k, dget group_defaults (KS k) = None -> ix (opt_fields d group_defaults) k = ix d k).
  { intros k Hk. unfold ix. rewrite opt_fields_get, Hk. destruct (dget d (KS k)); reflexivity. }
  rewrite (E "entity_type_code" eq_refl), (E "entity_tag" eq_refl), (E "group_number" eq_refl), (E "group_name" eq_refl). clear E.
  rewrite !Forall_cons_iff, !Forall_app.
  assert (H0 : ok_item (txt "%6i\n%6i\n" [Tools.I (-1); Tools.I 2429])) by (eexists; split; [vm_compute; reflexivity|repeat constructor]).
  assert (X1 : ok_item (txt "%10i%10i%10i%10i%10i%10i%10i%10i\n" (ix d "group_number" :: map (ix (opt_fields d group_defaults)) set_keys ++ [len_arg (ix d "entity_type_code")])) <->
    Forall (field_ok d) (fields Must Int ["group_number"] ++ fields May Int group_sets) /\ exists n, counted d "entity_type_code" n).
  { rewrite ok_txt. change (parse_fmt SNorm "%10i%10i%10i%10i%10i%10i%10i%10i\n") with (repeat (FInt 10) 8 ++ [FLit LF]). unfold set_keys, fields, group_sets. cbn [repeat map app fits kind_of].
    rewrite len_arg_ok, good_ix. assert (M : forall k, dget group_defaults (KS k) = Some (VInt 0) -> (good Int (ix (opt_fields d group_defaults) k) <-> field_ok d (k, Int, May))).
    { intros k Hk. exact (good_may Int d group_defaults k _ Hk Logic.I). }
    rewrite (M "active_constraint_set_no_for_group" eq_refl), (M "active_restraint_set_no_for_group" eq_refl), (M "active_load_set_no_for_group" eq_refl),
      (M "active_dof_set_no_for_group" eq_refl), (M "active_temperature_set_no_for_group" eq_refl), (M "active_contact_set_no_for_group" eq_refl).
    split.
    - intros (A1 & A2 & A3 & A4 & A5 & A6 & A7 & A8 & _). split; [repeat constructor; assumption|exact A8].
    - intros [A B]. repeat match goal with H : Forall _ (_ :: _) |- _ => inversion H; clear H; subst end. repeat split; try assumption. left. reflexivity. }
  assert (X2 : ok_item (txt "%-40s\n" [ix d "group_name"]) <-> Forall (field_ok d) (fields Must Text ["group_name"])).
  { rewrite ok_txt. change (parse_fmt SNorm "%-40s\n") with [FStr true 40; FLit LF]. cbn [fits kind_of]. rewrite good_ix. unfold fields. cbn [map]. rewrite Forall_cons_iff.
    split; [intros [A _]; split; [exact A|constructor]|intros [A _]; split; [exact A|split; [left; reflexivity|exact Logic.I]]]. }
  rewrite X1, X2. clear X1 X2.
  set (Q i := place_ok d "entity_type_code" i /\ place_ok d "entity_tag" i).
  assert (X3 : forall n, Forall ok_item (map (fun i => txt "%10i%10i%10i%10i%10i%10i%10i%10i\n"
      [at_ (ix d "entity_type_code") (Z.of_nat (i * 4)); at_ (ix d "entity_tag") (Z.of_nat (i * 4)); at_ (ix d "entity_type_code") (Z.of_nat (i * 4 + 1)); at_ (ix d "entity_tag") (Z.of_nat (i * 4 + 1));
       at_ (ix d "entity_type_code") (Z.of_nat (i * 4 + 2)); at_ (ix d "entity_tag") (Z.of_nat (i * 4 + 2)); at_ (ix d "entity_type_code") (Z.of_nat (i * 4 + 3)); at_ (ix d "entity_tag") (Z.of_nat (i * 4 + 3))])
      (seq 0 (n / 4))) <-> Forall Q (seq 0 (4 * (n / 4)))).
  { intro n. rewrite List.Forall_map, !Forall_forall.
    assert (Y : (forall i, i < n / 4 -> Q (i * 4) /\ Q (i * 4 + 1) /\ Q (i * 4 + 2) /\ Q (i * 4 + 3)) <-> forall i, In i (seq 0 (4 * (n / 4))) -> Q i).
    { rewrite fours_cover. split; intros H i Hi; [apply in_seq in Hi; apply H; lia|apply H, in_seq; lia]. }
    rewrite <- Y. clear Y. split.
    - intros H i Hi. assert (Hs : In i (seq 0 (n / 4))) by (apply in_seq; lia). specialize (H i Hs). cbv beta in H. rewrite ok_txt in H.
      change (parse_fmt SNorm "%10i%10i%10i%10i%10i%10i%10i%10i\n") with (repeat (FInt 10) 8 ++ [FLit LF]) in H. cbn [repeat app fits kind_of] in H. rewrite !place_iff in H. unfold Q. tauto.
    - intros H i Hi. apply in_seq in Hi. assert (Hs : i < n / 4) by lia. specialize (H i Hs). rewrite ok_txt.
      change (parse_fmt SNorm "%10i%10i%10i%10i%10i%10i%10i%10i\n") with (repeat (FInt 10) 8 ++ [FLit LF]). cbn [repeat app fits kind_of]. rewrite !place_iff. unfold Q in H.
      assert (S : scalar LF) by (left; reflexivity). tauto. }
  assert (X4 : forall n, Forall ok_item (map (fun i => txt "%10i%10i" [at_ (ix d "entity_type_code") (Z.of_nat (i * 4)); at_ (ix d "entity_tag") (Z.of_nat (i * 4))]) (seq 0 (n mod 4))) <->
    Forall Q (map (fun i => i * 4) (seq 0 (n mod 4)))).
  { intro n. rewrite !List.Forall_map. assert (Y : forall i, ok_item (txt "%10i%10i" [at_ (ix d "entity_type_code") (Z.of_nat (i * 4)); at_ (ix d "entity_tag") (Z.of_nat (i * 4))]) <-> Q (i * 4)).
    { intro i. rewrite ok_txt. change (parse_fmt SNorm "%10i%10i") with [FInt 10; FInt 10]. cbn [fits kind_of]. rewrite !place_iff. unfold Q. tauto. }
    split; apply Forall_impl; intros i Hi; apply Y; exact Hi. }
  rewrite X3, X4. clear X3 X4. unfold positions.
  assert (X5 : forall n, Forall ok_item (if Nat.eqb (n mod 4) 0 then [] else [txt "\n" []])).
  { intro n. destruct (Nat.eqb (n mod 4) 0); [constructor|]. constructor; [apply ok_nl|constructor]. }
  assert (X6 : Forall ok_item [end_line]) by (constructor; [apply ok_end; exact Logic.I|constructor]).
  split.
  - intros (_ & (A12 & n & Hn) & A3 & A4 & A5 & _). apply Forall_app in A12 as [A1 A2]. split; [auto|]. exists n. split; [exact Hn|]. apply counted_len in Hn. rewrite Hn in A4, A5. apply Forall_app. auto.
  - intros ((A1 & A2 & A3) & n & Hn & A4). pose proof Hn as Hn'. apply counted_len in Hn. rewrite Hn. apply Forall_app in A4 as [A4 A5]. 
    split; [exact H0|]. split; [split; [apply Forall_app; auto|eauto]|]. split; [exact A3|]. split; [exact A4|]. split; [exact A5|]. split; [apply X5|exact X6].
Qed.
Print Assumptions C72_2429.
(** No group of two, three or seven entities is written. *)
Corollary C72_2429_never : forall c m fd file u d n, dget d (KS "type") = Some (VInt 2429) -> dget d (KS "data") = None -> counted d "entity_type_code" n ->
  In n [2; 3; 7] -> w_exc (write_set c m fd file u d) <> None.
Proof.
  intros c m fd file u d n Ht Hd Hn Hin H. apply (C72_2429 _ _ _ _ _ _ Ht Hd) in H as (_ & n' & Hn' & F). pose proof (counted_fun _ _ _ _ Hn Hn') as <-. clear Hn'.
  destruct Hn as (v & l & Ev & El & L). rewrite Forall_forall in F.
  assert (X : exists i, In i (positions n) /\ n <= i).
  { cbn in Hin. destruct Hin as [<-|[<-|[<-|[]]]]; [exists 4|exists 4|exists 8]; (split; [vm_compute; tauto|lia]). }
  destruct X as (i & Hi & Hge). destruct (F i Hi) as [(v' & l' & x & Ev' & El' & Hx & _) _]. rewrite Ev in Ev'. injection Ev' as <-. rewrite El in El'. injection El' as <-.
  assert (i < length l) by (apply nth_error_Some; congruence). lia.
Qed.
Print Assumptions C72_2429_never.

(** Type 82: [nodes] must be an array of integers or reals. *)
Lemma row10_ok : forall l, Forall integral l -> ok_item (row10 l).
Proof.
  intros l H. unfold row10. cbn [ok_item]. change (fun v => pct "%10i" [Ok v]) with (int_cell 10). apply (rmap_ints 10) in H as [p Hp]. rewrite Hp. cbn [rbind]. eexists. split; [reflexivity|].
  apply Forall_app. split; [exact (rmap_scalar 10 l p Hp)|]. constructor; [left; reflexivity|constructor].
Qed.
Lemma rows8_ok : forall n l, Forall integral l -> Forall ok_item (rows8 n l).
Proof.
  induction n as [|n IH]; intros l H; [constructor|]. cbn [rows8]. rewrite <- (firstn_skipn 8 l) in H. apply Forall_app in H as [H1 H2]. constructor; [apply row10_ok, H1|apply IH, H2].
Qed.
Theorem C72_82 : forall c m fd file u d, dget d (KS "type") = Some (VInt 82) -> dget d (KS "data") = None ->
  (forall dt l, dget d (KS "nodes") = Some (VArr dt l) -> Forall integral l) ->
  (w_exc (write_set c m fd file u d) = None <->
   Forall (field_ok d) (fields Must Int ["trace_num"] ++ fields May Int ["color"] ++ fields May Text ["id"])
   /\ exists dt l, dget d (KS "nodes") = Some (VArr dt l) /\ (dt = DInt \/ dt = DFloat)).
Proof.
  intros c m fd file u d Ht Hd Hi. rewrite (accepted _ _ _ _ _ _ _ Ht Hd). change (write_dispatch c m fd (VInt 82) d) with (write82 d). unfold write82. cbn [wp_items].
  set (defs := [(KS "id", VStr (lit "NONE")); (KS "color", VInt 0)]).
  assert (E : ix (opt_fields d defs) "nodes" = ix d "nodes").
  { unfold ix. rewrite opt_fields_get. change (dget defs (KS "nodes")) with (@None pyval). destruct (dget d (KS "nodes")); reflexivity. }
  rewrite E. clear E. unfold ix at 1. destruct (dget d (KS "nodes")) as [v|]; cbn [of_option].
  2: { split; [intro H; apply not_ok1 in H; destruct H|]. intros (_ & dt & l & E & _). discriminate. }
  destruct v as [| | | | | | |dt l| |]; try (split; [intro H; apply not_ok1 in H; destruct H|intros (_ & dt' & l' & E & _); discriminate]; fail).
  specialize (Hi dt l eq_refl).
  assert (X : forall z, Forall ok_item [hdr_lines 82; txt "%10i%10i%10i\n" [ix (opt_fields d defs) "trace_num"; Tools.I z; ix (opt_fields d defs) "color"]; txt "%-80s\n" [ix (opt_fields d defs) "id"]] <->
    Forall (field_ok d) (fields Must Int ["trace_num"] ++ fields May Int ["color"] ++ fields May Text ["id"])).
  { intro z. transitivity (Forall ok_item [hdr_lines 82; txt "%10i%10i\n" [ix (opt_fields d defs) "trace_num"; ix (opt_fields d defs) "color"]; txt "%-80s\n" [ix (opt_fields d defs) "id"]]).
    - apply Forall_same. repeat (apply Forall2_cons || apply Forall2_nil); try reflexivity. rewrite !ok_txt.
      change (parse_fmt SNorm "%10i%10i%10i\n") with [FInt 10; FInt 10; FInt 10; FLit LF]. change (parse_fmt SNorm "%10i%10i\n") with [FInt 10; FInt 10; FLit LF]. cbn [fits kind_of].
      unfold Tools.I. rewrite good_ok. cbn [takes integral]. tauto.
    - scalar_items d [("id", Text); ("color", Int)] [HDR 82; ("%10i%10i\n", map SField ["trace_num"; "color"]); ("%-80s\n", [SField "id"])].
      subst defs. repeat constructor; cbn [snd takes textual]; auto using lits_writable. }
  assert (Y : forall n z, Forall ok_item (hdr_lines 82 :: txt "%10i%10i%10i\n" [ix (opt_fields d defs) "trace_num"; Tools.I z; ix (opt_fields d defs) "color"]
      :: txt "%-80s\n" [ix (opt_fields d defs) "id"] :: rows8 (n / 8) l ++ (if Nat.ltb 0 (n mod 8) then [row10 (skipn (8 * (n / 8)) l)] else []) ++ [end_line]) <->
    Forall (field_ok d) (fields Must Int ["trace_num"] ++ fields May Int ["color"] ++ fields May Text ["id"])).
  { intros n z. rewrite <- (X z). match goal with |- Forall ok_item (?a :: ?b :: ?x :: ?r) <-> _ => change (a :: b :: x :: r) with ([a; b; x] ++ r) end. rewrite Forall_app. split; [intros [H _]; exact H|]. intro H. split; [exact H|].
    rewrite !Forall_app. split; [apply rows8_ok, Hi|]. split; [|constructor; [apply ok_end; exact Logic.I|constructor]].
    destruct (Nat.ltb 0 (n mod 8)); [|constructor]. constructor; [|constructor]. apply row10_ok. rewrite <- (firstn_skipn (8 * (n / 8)) l) in Hi. apply Forall_app in Hi. tauto. }
  destruct dt; try (split; [intro H; apply not_ok1 in H; destruct H|]; intros (_ & dt' & l' & E & [->| ->]); discriminate).
  all: rewrite Y; split; [intro H; split; [exact H|eauto]|tauto].
Qed.
Print Assumptions C72_82.
