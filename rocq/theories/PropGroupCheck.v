(** C57: what prepare_2429 and prepare_2467 raise for sets of groups they refuse. *)
From Coq Require Import String List NArith ZArith Bool Lia.
Import ListNotations.
From Verif Require Import PyBase PyNum PyVal Utf8 Tools DsNodes DsHeaders DsGroups Uff Facts DictFacts Prepare PropPrepare.
From Coq Require Import Lia.
Open Scope string_scope.
Open Scope list_scope.
Open Scope nat_scope.

(** The entries of a group that are looked up, in this order. *)
Definition asked_keys : list string :=
  ["group_number"; "group_name"; "entity_type_code"; "entity_tag"; "active_constraint_set_no_for_group"; "active_restraint_set_no_for_group";
   "active_load_set_no_for_group"; "active_dof_set_no_for_group"; "active_temperature_set_no_for_group"; "active_contact_set_no_for_group"].
(** What looking them up raises. *)
Inductive no_group : pyval -> exc -> Prop :=
| ng_array : forall dt l, no_group (VArr dt l) IndexError
| ng_array2 : forall dt l, no_group (VArr2 dt l) IndexError
| ng_other : forall v, (forall d, v <> VDict d) -> (forall dt l, v <> VArr dt l) -> (forall dt l, v <> VArr2 dt l) -> no_group v TypeError
| ng_missing : forall d a k b, asked_keys = a ++ k :: b -> (forall k', In k' a -> dget d (KS k') <> None) -> dget d (KS k) = None -> no_group (VDict d) (KeyError k).
(** What a function for sets of groups with the checks [sg] returns or raises. *)
Definition checks_groups (prep : pyval -> bool -> result dict) (sg : psig) : Prop :=
  (forall v full, (forall l, v <> VList l) -> prep v full = Err TypeError) /\
  (forall pre it post full e, (forall x, In x pre -> exists d, prep (VList [x]) full = Ok d) -> prep (VList [it]) full = Err e ->
    prep (VList (pre ++ it :: post)) full = Err e) /\
  (forall it full e, no_group it e -> prep (VList [it]) full = Err e) /\
  (forall d vs full e, Forall2 (fun k v => dget d (KS k) = Some v) asked_keys vs ->
    (prep (VList [VDict d]) full = Err e <-> prepare sg (combine (ps_params sg) vs) false = Err e)) /\
  (forall it full e, prep (VList [it]) full = Err e -> no_group it e \/
    exists d vs, it = VDict d /\ Forall2 (fun k v => dget d (KS k) = Some v) asked_keys vs).

Lemma looked_up : forall d ks vs, Forall2 (fun k v => dget d (KS k) = Some v) ks vs -> rmap (vix (VDict d)) ks = Ok vs.
Proof.
  intros d ks vs H. unfold rmap. induction H as [|k v ks vs Hk _ IH]; [reflexivity|]. cbn [map rseq vix]. unfold ix at 1. rewrite Hk. cbn [of_option rbind].
  cbn [vix] in IH. rewrite IH. reflexivity.
Qed.
Lemma looked_fails : forall d b k a, (forall k', In k' a -> dget d (KS k') <> None) -> dget d (KS k) = None -> rmap (vix (VDict d)) (a ++ k :: b) = Err (KeyError k).
Proof.
  intros d b k a Ha Hk. unfold rmap. induction a as [|x a IH]; cbn [app map rseq vix]; unfold ix at 1.
  - rewrite Hk. reflexivity.
  - destruct (dget d (KS x)) as [v|] eqn:E; [|contradiction (Ha x (or_introl eq_refl) E)]. cbn [of_option rbind]. cbn [vix] in IH.
    rewrite IH by (intros k' Hk'; apply Ha; right; exact Hk'). reflexivity.
Qed.
Lemma look_cases : forall d ks, (exists vs, Forall2 (fun k v => dget d (KS k) = Some v) ks vs) \/
  exists a k b, ks = a ++ k :: b /\ (forall k', In k' a -> dget d (KS k') <> None) /\ dget d (KS k) = None.
Proof.
  intros d. induction ks as [|x ks IH]; [left; exists []; constructor|]. destruct (dget d (KS x)) as [v|] eqn:E.
  - destruct IH as [[vs H]|(a & k & b & -> & H1 & H2)]; [left; exists (v :: vs); constructor; assumption|].
    right. exists (x :: a), k, b. split; [reflexivity|]. split; [|exact H2]. intros k' [<- | Hk']; [congruence|auto].
  - right. exists [], x, ks. split; [reflexivity|]. split; [intros k' []|exact E].
Qed.
Lemma groups_check : forall n sg, checks_groups (prepare_groups n sg) sg.
Proof.
  intros n sg. refine (conj _ (conj _ (conj _ (conj _ _)))).
  - intros v full H. destruct v; try reflexivity. contradiction (H l eq_refl).
  - intros pre it post full e Hp He. cbn [prepare_groups] in *. unfold rmap in *. induction pre as [|x pre IH].
    + cbn [app map rseq] in *. destruct (do vs <- group_values it ;; _) as [a|e']; [discriminate|]. exact He.
    + destruct (Hp x (or_introl eq_refl)) as [d Hd]. cbn [app map rseq] in *. destruct (do vs <- group_values x ;; _) as [a|e']; [|discriminate]. cbn [rbind].
      specialize (IH (fun y Hy => Hp y (or_intror Hy))). destruct (rseq _) as [t|e']; [discriminate|]. exact IH.
  - intros it full e H. cbn [prepare_groups]. unfold rmap at 1. cbn [map rseq]. unfold group_values. change ("group_number" :: "group_name" :: "entity_type_code" :: "entity_tag" :: set_keys) with asked_keys.
    destruct H as [dt l|dt l|v H1 H2 H3|d a k b E Ha Hk]; try reflexivity.
    + destruct v; try reflexivity; [contradiction (H2 _ _ eq_refl)|contradiction (H3 _ _ eq_refl)|contradiction (H1 _ eq_refl)].
    + rewrite E, looked_fails by assumption. reflexivity.
  - intros d vs full e H. cbn [prepare_groups]. unfold rmap at 1. cbn [map rseq]. unfold group_values. change ("group_number" :: "group_name" :: "entity_type_code" :: "entity_tag" :: set_keys) with asked_keys.
    rewrite (looked_up _ _ _ H). cbn [rbind]. destruct (prepare sg _ false) as [a|e']; cbn [rbind rseq]; split; intro G; try discriminate G; injection G as ->; reflexivity.
  - intros it full e H. cbn [prepare_groups] in H. unfold rmap at 1 in H. cbn [map rseq] in H. unfold group_values in H.
    change ("group_number" :: "group_name" :: "entity_type_code" :: "entity_tag" :: set_keys) with asked_keys in H.
    destruct it as [| | | | | | |dt l|dt l|d].
    8, 9: injection H as <-; left; constructor.
    8:{ destruct (look_cases d asked_keys) as [[vs L]|(a & k & b & E & H1 & H2)]; [right; exists d, vs; split; [reflexivity|exact L]|].
      left. rewrite E, looked_fails in H by assumption. injection H as <-. econstructor; eassumption. }
    all: injection H as <-; left; apply ng_other; discriminate.
Qed.
(** Of a list the first group that is refused decides; an array as group raises
    IndexError, another value TypeError, a dictionary without one of the entries
    KeyError with the first missing one, and otherwise the checks of the entries,
    taken by position, decide. *)
Theorem C57_groups_raise : checks_groups prepare_2429 siggroup2429 /\ checks_groups prepare_2467 siggroup2467.
Proof. split; apply groups_check. Qed.
Print Assumptions C57_groups_raise.
Definition ga : dict := [(KS "group_number", VInt 1); (KS "group_name", VStr (lit "g"))].
Example C57_raise_example : (exists d, prepare_2429 (VList [g49]) false = Ok d) /\ prepare_2429 (VList [g49; VArr DInt [VInt 1]; VDict ga]) false = Err IndexError /\
  prepare_2429 (VList [g49; VDict ga; VNone]) true = Err (KeyError "entity_type_code") /\ prepare_2467 (VList [VNone; VDict ga]) true = Err TypeError /\
  no_group (VDict ga) (KeyError "entity_type_code").
Proof.
  refine (conj _ (conj _ (conj _ (conj _ _)))); [eexists; vm_compute; reflexivity|vm_compute; reflexivity|vm_compute; reflexivity|vm_compute; reflexivity|].
  apply (ng_missing ga ["group_number"; "group_name"] "entity_type_code" (skipn 3 asked_keys)); [reflexivity| |reflexivity].
  intros k' [<- | [<- | []]]; discriminate.
Qed.
