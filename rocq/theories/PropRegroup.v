(** C56 for elements (2412): the copy of a set is the set if and only if no element
    stands between two others of one descriptor that it does not share, and the
    copy of a copy is the copy. *)
From Coq Require Import String List NArith ZArith Bool Lia.
Import ListNotations.
From Verif Require Import PyBase PyNum PyVal Utf8 Tools DsNodes DsHeaders DsGroups Uff Facts DecFacts DictFacts Scan Container Append
  ContainerThms Utf8Facts Lines Stored Cells Rows RtNodes RtElems Witness PropGroups PropLayout Stable.
From Coq Require Import Lia.
Open Scope string_scope.
Open Scope list_scope.
Open Scope nat_scope.

(** Elements of one descriptor stand together. *)
Definition together (l : list elem) : Prop := forall a x b y c, l = a ++ x :: b ++ y :: c -> e_desc x = e_desc y -> Forall (fun z => e_desc z = e_desc x) b.

(* ------------------------------------------------------------------ *)
(** ** Regrouping *)

Lemma firsts_in : forall D k, In k (firsts D) <-> In k D.
Proof.
  induction D as [|a D IH]; intro k; [reflexivity|]. cbn [firsts In]. rewrite filter_In, IH. split.
  - intros [H|[H _]]; auto.
  - intros [H|H]; [auto|]. destruct (Z.eq_dec a k) as [E|E]; [auto|]. right. split; [exact H|]. rewrite (proj2 (Z.eqb_neq _ _)) by congruence. reflexivity.
Qed.
Lemma firsts_nodup : forall D, NoDup (firsts D).
Proof.
  induction D as [|a D IH]; [constructor|]. cbn [firsts]. constructor; [|apply NoDup_filter; exact IH].
  rewrite filter_In. intros [_ H]. rewrite Z.eqb_refl in H. discriminate.
Qed.
Lemma desc_with : forall k l, map e_desc (with_desc k l) = repeat k (length (with_desc k l)).
Proof.
  intros k l. unfold with_desc. induction l as [|e l IH]; [reflexivity|]. cbn [filter]. destruct (e_desc e =? k)%Z eqn:E; [|exact IH].
  apply Z.eqb_eq in E. cbn [map length repeat]. rewrite IH, E. reflexivity.
Qed.
Lemma with_app : forall k a b, with_desc k (a ++ b) = with_desc k a ++ with_desc k b.
Proof. intros k a b. apply filter_app. Qed.
Lemma with_all : forall k l n, map e_desc l = repeat k n -> with_desc k l = l /\ forall k', k' <> k -> with_desc k' l = [].
Proof.
  intros k l. unfold with_desc. induction l as [|e l IH]; intros [|n] H; try discriminate; [split; auto|]. cbn [map repeat] in H. injection H as He H.
  destruct (IH n H) as [I1 I2]. cbn [filter]. rewrite He, Z.eqb_refl, I1. split; [reflexivity|]. intros k' Hk. rewrite (proj2 (Z.eqb_neq _ _)) by congruence. auto.
Qed.
Lemma with_none : forall k l, ~ In k (map e_desc l) -> with_desc k l = [].
Proof.
  intros k l. unfold with_desc. induction l as [|e l IH]; intro H; [reflexivity|]. cbn [map In] in H. cbn [filter]. rewrite (proj2 (Z.eqb_neq _ _)) by tauto. apply IH. tauto.
Qed.
Lemma in_runs : forall (n : Z -> nat) ks k, In k (flat_map (fun k => repeat k (n k)) ks) -> In k ks.
Proof. intros n ks k H. apply in_flat_map in H as (x & Hx & H). apply repeat_spec in H. subst. exact Hx. Qed.
(** A list in runs of descriptors is put together again from them. *)
Lemma runs_regroup : forall (n : Z -> nat) ks l, NoDup ks -> map e_desc l = flat_map (fun k => repeat k (n k)) ks -> flat_map (fun k => with_desc k l) ks = l.
Proof.
  intros n ks. induction ks as [|k ks IH]; intros l Hn H.
  - destruct l; [reflexivity|discriminate].
  - cbn [flat_map] in H. inversion Hn as [|? ? Hk Hn']; subst. destruct (map_eq_app _ _ _ _ H) as (l1 & l2 & -> & E1 & E2).
    destruct (with_all k l1 _ E1) as [A1 A2]. cbn [flat_map]. rewrite with_app, A1, with_none, app_nil_r by (rewrite E2; intro C; apply Hk; eapply in_runs; exact C).
    f_equal. transitivity (flat_map (fun k => with_desc k l2) ks); [|exact (IH l2 Hn' E2)]. rewrite !flat_map_concat_map; f_equal; apply map_ext_in; intros k' Hk'. rewrite with_app, A2 by (intros ->; contradiction). reflexivity.
Qed.
Lemma firsts_run : forall k n rest, ~ In k rest -> firsts (repeat k (S n) ++ rest) = k :: firsts rest.
Proof.
  intros k n rest H. assert (F : filter (fun b => negb (b =? k)%Z) (firsts rest) = firsts rest).
  { assert (G : forall L, ~ In k L -> filter (fun b => negb (b =? k)%Z) L = L).
    { induction L as [|x L IH]; intro HL; [reflexivity|]. cbn [In] in HL. cbn [filter]. rewrite (proj2 (Z.eqb_neq _ _)) by (intro; subst; tauto). cbn [negb]. rewrite IH by tauto. reflexivity. }
    apply G. rewrite firsts_in. exact H. }
  induction n as [|n IH]; [cbn [repeat app firsts]; rewrite F; reflexivity|]. cbn [repeat app firsts] in *. rewrite IH. cbn [filter]. rewrite Z.eqb_refl. cbn [negb]. rewrite F. reflexivity.
Qed.
Lemma firsts_runs : forall (n : Z -> nat) ks, NoDup ks -> (forall k, In k ks -> 0 < n k) -> firsts (flat_map (fun k => repeat k (n k)) ks) = ks.
Proof.
  intros n ks. induction ks as [|k ks IH]; intros Hn Hp; [reflexivity|]. inversion Hn as [|? ? Hk Hn']; subst. cbn [flat_map].
  assert (P := Hp k (or_introl eq_refl)). destruct (n k) as [|j]; [lia|]. rewrite firsts_run by (intro C; apply Hk; eapply in_runs; exact C).
  rewrite IH; [reflexivity|exact Hn'|]. intros k' Hk'. apply Hp. right. exact Hk'.
Qed.
Lemma desc_regroup : forall l, map e_desc (regroup l) = flat_map (fun k => repeat k (length (with_desc k l))) (firsts (map e_desc l)).
Proof.
  intro l. unfold regroup. rewrite !flat_map_concat_map, concat_map, map_map. f_equal. apply map_ext. intro k. apply desc_with.
Qed.
Lemma with_pos : forall k l, In k (map e_desc l) -> 0 < length (with_desc k l).
Proof.
  intros k l H. unfold with_desc. apply in_map_iff in H as (e & E & H). assert (G : In e (filter (fun e => (e_desc e =? k)%Z) l)) by (apply filter_In; split; [exact H|apply Z.eqb_eq; exact E]).
  destruct (filter _ l); [contradiction|cbn; lia].
Qed.
(** Only the sequence of descriptors counts. *)
Lemma regroup_desc : forall l, map e_desc (regroup l) = map e_desc l -> regroup l = l.
Proof.
  intros l H. rewrite desc_regroup in H. unfold regroup. refine (runs_regroup _ _ _ (firsts_nodup _) (eq_sym H)).
Qed.
Lemma regroup_again : forall l, regroup (regroup l) = regroup l.
Proof.
  intro l. unfold regroup at 1. rewrite desc_regroup, firsts_runs.
  - exact (runs_regroup _ _ _ (firsts_nodup _) (desc_regroup l)).
  - apply firsts_nodup.
  - intros k Hk. apply with_pos. apply firsts_in. exact Hk.
Qed.
Lemma regroup_in : forall l e, In e (regroup l) <-> In e l.
Proof.
  intros l e. unfold regroup, with_desc. rewrite in_flat_map. split.
  - intros (k & _ & H). apply filter_In in H. apply H.
  - intro H. exists (e_desc e). split; [apply firsts_in; apply in_map; exact H|]. apply filter_In. split; [exact H|apply Z.eqb_refl].
Qed.
(** Standing together. *)
Lemma together_tail : forall e l, together (e :: l) -> together l.
Proof. intros e l H a x b y c E. apply (H (e :: a) x b y c). rewrite E. reflexivity. Qed.
Lemma with_cons_other : forall k e l, e_desc e <> k -> with_desc k (e :: l) = with_desc k l.
Proof. intros k e l H. unfold with_desc. cbn [filter]. rewrite (proj2 (Z.eqb_neq _ _)) by exact H. reflexivity. Qed.
Lemma together_regroup : forall l, together l -> regroup l = l.
Proof.
  induction l as [|e l IH]; intro H; [reflexivity|]. assert (IH' := IH (together_tail _ _ H)). clear IH.
  unfold regroup in *. cbn [map firsts flat_map].
  assert (Eo : forall ks, ~ In (e_desc e) ks -> flat_map (fun k => with_desc k (e :: l)) ks = flat_map (fun k => with_desc k l) ks).
  { intros ks Hk. rewrite !flat_map_concat_map. f_equal. apply map_ext_in. intros k Hi. apply with_cons_other. intros <-. contradiction. }
  rewrite Eo by (rewrite filter_In; intros [_ C]; rewrite Z.eqb_refl in C; discriminate).
  unfold with_desc at 1. cbn [filter]. rewrite Z.eqb_refl. cbn [app]. f_equal. fold (with_desc (e_desc e) l).
  destruct l as [|e2 l]; [reflexivity|]. destruct (Z.eq_dec (e_desc e2) (e_desc e)) as [E2|E2].
  - rewrite <- IH' at 3. cbn [map firsts flat_map]. rewrite E2. f_equal. cbn [filter]. rewrite Z.eqb_refl. cbn [negb].
    rewrite !flat_map_concat_map. f_equal. f_equal.
    assert (G : forall L, ~ In (e_desc e) L -> filter (fun b => negb (b =? e_desc e)%Z) L = L).
    { induction L as [|x L IHL]; intro HL; [reflexivity|]. cbn [In] in HL. cbn [filter]. rewrite (proj2 (Z.eqb_neq _ _)) by (intro; subst; tauto). cbn [negb]. rewrite IHL by tauto. reflexivity. }
    apply G. rewrite filter_In. intros [_ C]. rewrite Z.eqb_refl in C. discriminate.
  - assert (Hn : ~ In (e_desc e) (map e_desc (e2 :: l))).
    { intro C. apply in_map_iff in C as (y & Ey & C). apply in_split in C as (b & c & Eb).
      assert (F := H [] e b y c). cbn [app] in F. rewrite Eb in F. specialize (F eq_refl (eq_sym Ey)). destruct b as [|b0 b].
      - cbn [app] in Eb. injection Eb as -> _. congruence.
      - cbn [app] in Eb. injection Eb as -> _. inversion F; congruence. }
    rewrite with_none by exact Hn. cbn [app]. rewrite <- IH' at 2. rewrite !flat_map_concat_map. f_equal. f_equal.
    assert (G : forall L, ~ In (e_desc e) L -> filter (fun b => negb (b =? e_desc e)%Z) L = L).
    { induction L as [|x L IHL]; intro HL; [reflexivity|]. cbn [In] in HL. cbn [filter]. rewrite (proj2 (Z.eqb_neq _ _)) by (intro; subst; tauto). cbn [negb]. rewrite IHL by tauto. reflexivity. }
    apply G. rewrite firsts_in. exact Hn.
Qed.
(** And the converse. *)
Lemma runs_together : forall (n : Z -> nat) ks l, NoDup ks -> map e_desc l = flat_map (fun k => repeat k (n k)) ks -> together l.
Proof.
  intros n ks. induction ks as [|k ks IH]; intros l Hn H a x b y c E Exy.
  - destruct l; [destruct a; discriminate|discriminate].
  - cbn [flat_map] in H. inversion Hn as [|? ? Hk Hn']; subst. destruct (map_eq_app _ _ _ _ H) as (l1 & l2 & El & E1 & E2).
    assert (A1 : forall e, In e l1 -> e_desc e = k) by (intros e He; apply (repeat_spec (n k) k); rewrite <- E1; apply in_map; exact He).
    assert (A2 : forall e, In e l2 -> e_desc e <> k).
    { intros e He C. apply Hk. apply (in_runs n). rewrite <- E2, <- C. apply in_map. exact He. }
    destruct (app_eq_app _ _ _ _ El) as (m & [[Ea Em]|[Ea Em]]).
    + (* x stands in the second part *)
      refine (IH l2 Hn' E2 m x b y c (eq_sym _) Exy). symmetry. exact Em.
    + destruct m as [|x' m].
      * rewrite app_nil_r in Ea. cbn [app] in Em. exact (IH l2 Hn' E2 [] x b y c (eq_sym Em) Exy).
      * cbn [app] in Em. injection Em as <- Em. assert (Kx : e_desc x = k) by (apply A1; rewrite Ea; apply in_or_app; right; left; reflexivity).
        assert (Hy : ~ In y l2) by (intro C; apply (A2 y C); congruence).
        rewrite Kx, Forall_forall. intros z Hz.
        destruct (app_eq_app _ _ _ _ Em) as (q & [[Eb Eq]|[Eb Eq]]).
        -- exfalso. apply Hy. rewrite Eq. apply in_or_app. right. left. reflexivity.
        -- apply A1. rewrite Ea, Eb. apply in_or_app. right. right. apply in_or_app. left. exact Hz.
Qed.
Lemma regroup_iff : forall l, regroup l = l <-> together l.
Proof.
  intro l. split; [|apply together_regroup]. intro H. apply (runs_together (fun k => length (with_desc k l)) (firsts (map e_desc l))); [apply firsts_nodup|].
  rewrite <- desc_regroup, H. reflexivity.
Qed.

(* ------------------------------------------------------------------ *)
(** ** Copies *)

Lemma wf_regroup : forall l, wf2412 l -> wf2412 (regroup l).
Proof. intros l H. unfold wf2412 in *. rewrite Forall_forall in *. intros e He. apply H. apply regroup_in. exact He. Qed.
Lemma toks_desc : forall l k, flat_map elem_toks l = flat_map elem_toks k -> map e_desc l = map e_desc k.
Proof.
  induction l as [|e l IH]; intros [|f k] H; [reflexivity|discriminate|discriminate|]. cbn [flat_map] in H. unfold elem_toks at 1 3 in H. cbn [app map attrs] in H.
  injection H as _ Hd _ _ _ _ H. apply dec_Z_inj in Hd. cbn [map]. rewrite Hd. f_equal.
  assert (B : is_beam e = is_beam f) by (unfold is_beam; rewrite Hd; reflexivity). rewrite B in H. rewrite <- !app_assoc in H. cbn [app] in H.
  destruct (is_beam f); cbn [app] in H; [injection H as _ _ H|injection H as _ H]; apply IH; exact H.
Qed.
Lemma lines_toks : forall l, wf2412 l -> map split (flat_map elem_lines l) = flat_map elem_toks l.
Proof.
  intros l W. rewrite !flat_map_concat_map, concat_map, map_map. f_equal. apply map_ext_in. intros e He. apply elem_split.
  unfold wf2412 in W. rewrite Forall_forall in W. auto.
Qed.
(** C56 for elements: the dictionary read back is written as the set was if and
    only if the elements of one descriptor stand together. *)
Theorem C56_order_iff : forall c m fd d l, repr2412 d l -> wf2412 l -> (recopies c m fd d (read2412 l) <-> together l).
Proof.
  intros c m fd d l R W. rewrite <- regroup_iff. split; [|apply same2412; assumption]. intro H. apply regroup_desc.
  destruct (H c m fd) as (new & G). destruct (G []) as [G1 G2]. clear G H.
  assert (T1 := set2412 c m fd false d l R W). assert (T2 := set2412 c m fd false _ _ (again2412 l) (wf_regroup l W)).
  assert (O1 := ts_ok _ _ _ _ _ _ _ _ _ T1). assert (O2 := ts_ok _ _ _ _ _ _ _ _ _ T2).
  apply text_set_block in T1 as (b & (_ & S1) & _ & _ & P1 & Q1 & E1). apply text_set_block in T2 as (b' & (_ & S2) & _ & _ & P2 & Q2 & E2).
  rewrite S1 in G1. rewrite S2 in G2. injection G1 as G1. injection G2 as G2. rewrite <- G2 in G1. unfold block_bytes in G1. rewrite P1, Q1, P2, Q2 in G1.
  apply app_inv_head in G1. apply app_inv_tail in G1. rewrite <- G1 in E2.
  assert (U : unlines (type_hdr 2412 :: flat_map elem_lines l) = unlines (type_hdr 2412 :: flat_map elem_lines (regroup l))).
  { assert (D1 := decode_encode _ _ [] E1). assert (D2 := decode_encode _ _ [] E2). rewrite D1 in D2. cbn [utf8_decode] in D2. apply app_inv_tail in D2. exact D2. }
  apply lines_inj in U; [|eapply Forall_impl; [|exact O1]; intros x Hx; exact (noLF x (proj1 Hx))|eapply Forall_impl; [|exact O2]; intros x Hx; exact (noLF x (proj1 Hx))].
  injection U as U. apply (f_equal (map split)) in U. rewrite lines_toks in U by assumption.
  assert (U2 : flat_map elem_toks l = flat_map elem_toks (regroup l)) by (etransitivity; [exact U|]; apply lines_toks; apply wf_regroup; exact W).
  symmetry. apply toks_desc. exact U2.
Qed.
Print Assumptions C56_order_iff.
(** Whatever the order, the copy keeps each element, and the copy of the copy is
    the copy. *)
Theorem C56_second_copy : forall c m fd l, wf2412 l -> exists k, repr2412 (read2412 l) k /\ wf2412 k /\ (forall e, In e k <-> In e l) /\ together k /\
  recopies c m fd (read2412 l) (read2412 k).
Proof.
  intros c m fd l W. exists (regroup l). split; [apply again2412|]. split; [apply wf_regroup; exact W|]. split; [intro e; apply regroup_in|].
  split; [apply regroup_iff, regroup_again|]. apply same2412; [apply again2412|apply wf_regroup; exact W|apply regroup_again].
Qed.
Print Assumptions C56_second_copy.
Example C56_order_example : repr2412 d2412 l2412 /\ wf2412 l2412 /\ ~ together l2412.
Proof.
  split; [apply C43_example|]. split; [apply C43_example|]. intro H. apply regroup_iff in H. revert H. vm_compute. discriminate.
Qed.
