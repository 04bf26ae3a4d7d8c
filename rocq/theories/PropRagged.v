(** The prepare functions reject lists that are not rectangular (C57). *)
From Coq Require Import String List NArith ZArith Bool Lia.
Import ListNotations.
From Verif Require Import PyBase PyNum PyVal Utf8 Tools DsGroups Prepare PropPrepare.
From Coq Require Import Lia.
Open Scope string_scope.
Open Scope list_scope.
Open Scope nat_scope.

(** [v] is a rectangular array of sizes [s]: a list of [n] values that are all
    rectangular of the same sizes, an array, or a single value. *)
Inductive rect : list nat -> pyval -> Prop :=
| rect_nil : rect [0] (VList [])
| rect_list : forall s l, l <> [] -> Forall (rect s) l -> rect (length l :: s) (VList l)
| rect_arr : forall dt l, rect [length l] (VArr dt l)
| rect_arr0 : forall dt, rect [0; 0] (VArr2 dt [])
| rect_arr2 : forall dt r rows, rect [S (length rows); length r] (VArr2 dt (r :: rows))
| rect_one : forall v, (forall l, v <> VList l) -> (forall dt l, v <> VArr dt l) -> (forall dt rows, v <> VArr2 dt rows) -> rect [] v.

Lemma shape_rect : forall v s, shape v = Some s <-> rect s v.
Proof.
  intro v. induction v as [v Hv|l IH] using pyval_list_ind; intro s.
  - destruct v as [| | | | | |l|dt l|dt rows|]; try (exfalso; eapply Hv; reflexivity); cbn [shape]; split; intro H;
      try (injection H as <-); try (apply rect_one; discriminate); try (inversion H; subst; reflexivity);
      try (inversion H; subst; exfalso; match goal with X : forall _ _, ?v <> _ |- _ => eapply X; reflexivity end).
    + apply rect_arr.
    + inversion H; subst; try reflexivity. exfalso. match goal with X : forall dt l, VArr _ _ <> VArr dt l |- _ => eapply X; reflexivity end.
    + destruct rows; [apply rect_arr0|apply rect_arr2].
    + inversion H; subst; try reflexivity. exfalso. match goal with X : forall dt l, VArr2 _ _ <> VArr2 dt l |- _ => eapply X; reflexivity end.
  - destruct l as [|x l].
    + cbn [shape]. split; intro H.
      * injection H as <-. apply rect_nil.
      * inversion H; subst; try reflexivity; try contradiction.
        exfalso. match goal with X : forall l, VList [] <> VList l |- _ => eapply X; reflexivity end.
    + inversion IH as [|? ? Hx Hl]. subst. cbn [shape]. split; intro H.
      * destruct (shape x) as [s0|] eqn:Ex; [|discriminate].
        match type of H with (if forallb ?f l then _ else _) = _ => destruct (forallb f l) eqn:F end; [|discriminate]. injection H as <-.
        apply (rect_list s0 (x :: l)); [discriminate|]. constructor; [apply Hx; reflexivity|].
        rewrite forallb_forall in F. rewrite Forall_forall in *. intros y Hy. specialize (F y Hy). apply (Hl y Hy).
        destruct (shape y) as [s'|]; [|discriminate]. destruct (list_eq_dec Nat.eq_dec s0 s') as [->|]; [reflexivity|discriminate].
      * inversion H as [|s0 l0 _ Hall| | | |? Hn]; subst; [|exfalso; eapply Hn; reflexivity].
        inversion Hall as [|? ? Rx Rl]. subst. apply Hx in Rx. rewrite Rx.
        match goal with |- (if forallb ?f l then _ else _) = _ => assert (F : forallb f l = true) end; [|rewrite F; reflexivity].
        apply forallb_forall. rewrite Forall_forall in *. intros y Hy. specialize (Rl y Hy). apply (Hl y Hy) in Rl. rewrite Rl.
        destruct (list_eq_dec Nat.eq_dec s0 s0) as [_|N0]; [reflexivity|contradiction].
Qed.

Lemma deep_kind_err : forall v e, deep_kind v = Err e -> e = Unmodelled.
Proof.
  intro v. induction v as [v Hv|l IH] using pyval_list_ind; intros e H.
  - destruct v; cbn [deep_kind] in H; try discriminate.
    + destruct (int64_ok z); [discriminate|congruence].
    + exfalso. eapply Hv. reflexivity.
  - destruct l as [|x l]; [discriminate|]. inversion IH as [|? ? Hx Hl]. subst. cbn [deep_kind] in H.
    assert (G : forall acc, (forall e, acc = Err e -> e = Unmodelled) ->
      fold_left (fun acc y => do a <- acc ;; do b <- deep_kind y ;; Ok (promote a b)) l acc = Err e -> e = Unmodelled).
    { clear H Hx IH. induction l as [|y l IHl]; intros acc Ha H; cbn [fold_left] in H; [auto|].
      inversion Hl as [|? ? Hy Hl']. subst. refine (IHl Hl' _ _ H). intros e' E. destruct acc as [a|e0]; cbn [rbind] in E.
      - destruct (deep_kind y) as [b|e1] eqn:Eb; cbn [rbind] in E; [discriminate|]. injection E as <-. auto.
      - injection E as <-. auto. }
    exact (G _ Hx H).
Qed.

(** A value has a numpy type only if it is rectangular, and exactly the values that
    are not rectangular raise [ValueError]. *)
Theorem C57_rectangular : forall v,
  (forall k, np_kind v = Ok k -> exists s, rect s v) /\ (np_kind v = Err ValueError <-> ~ exists s, rect s v).
Proof.
  intro v. unfold np_kind. destruct (shape v) as [s|] eqn:E.
  - apply shape_rect in E. split; [eauto|]. split; intro H; [|exfalso; eauto]. apply deep_kind_err in H. discriminate.
  - split; [discriminate|]. split; [|reflexivity]. intros _ [s R]. apply shape_rect in R. congruence.
Qed.
Print Assumptions C57_rectangular.

(** Every check of a numpy type raises [ValueError] for them. *)
Theorem C57_ragged : forall c v, In c [CInt; CIntV; CIntIs; CFloat; CFloatIs; CNum; CFloatCplx; GInt] ->
  ~ (exists s, rect s v) -> run_check c v = Err ValueError.
Proof.
  intros c v Hc Hv. apply (proj2 (C57_rectangular v)) in Hv.
  repeat (destruct Hc as [<-|Hc]; [cbn [run_check]; unfold dtype_check, dtype_check_is; rewrite ?Hv; reflexivity|]). destruct Hc.
Qed.
Print Assumptions C57_ragged.

Example C57_ragged_example :
  run_check CInt (VList [VList [VInt 1; VInt 2]; VList [VInt 3]]) = Err ValueError /\
  ~ (exists s, rect s (VList [VList [VInt 1; VInt 2]; VList [VInt 3]])) /\
  rect [2; 1] (VList [VList [VInt 1]; VArr DInt [VInt 3]]).
Proof.
  split; [reflexivity|]. split.
  - apply (proj2 (C57_rectangular _)). reflexivity.
  - apply shape_rect. reflexivity.
Qed.
