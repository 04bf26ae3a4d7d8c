(** The prepare functions (C37, C49, C52, C57, C58, C59). *)
From Coq Require Import String List NArith ZArith Bool Lia.
Import ListNotations.
From Verif Require Import PyBase PyNum PyVal Utf8 Tools DsNodes DsHeaders DsGroups Uff Facts DictFacts FloatText Container Append Lines Stored Cells Rows
  RtNodes RtCs RtHeads RtElems RtGroups RtNodal RtFun RtFunSet RtAnalysis PropNodes PropGroups PropHistory Prepare Witness.
From Coq Require Import Lia.
Open Scope string_scope.
Open Scope list_scope.
Open Scope nat_scope.

(* ------------------------------------------------------------------ *)
(** ** C57: what is stored *)

Definition sigs : list psig :=
  [sig15; sig18; sig55; sig58; sig82; sig151; sig164; sig1858; sig2400; sig2411; sig2412; sig2414; sig2420].

Lemma rseq_ok : forall A (l : list (result A)), (exists r, rseq l = Ok r) <-> Forall (fun x => exists a, x = Ok a) l.
Proof.
  intros A l. induction l as [|x l IH].
  - split; intro H; [constructor|exists []; reflexivity].
  - split.
    + intros [r H]. cbn [rseq] in H. destruct x as [a|]; [|discriminate]. cbn [rbind] in H. destruct (rseq l) as [as_|] eqn:E; [|discriminate].
      constructor; [eauto|]. apply IH. eauto.
    + intro H. inversion H as [|? ? [a ->] H2]. apply IH in H2 as [r Hr]. exists (a :: r). cbn [rseq rbind]. rewrite Hr. reflexivity.
Qed.

(** A call is accepted exactly if its keywords exist and every check passes; the
    result is then fixed. *)
Theorem C57_accepted : forall sg a full d, prepare sg a full = Ok d <->
  accepts sg a = true /\ (forall p c, In (p, c) (ps_checks sg) -> run_check c (arg sg a p) = Ok tt) /\
  d = if full then full_dict sg a else check_dict_for_none (full_dict sg a).
Proof.
  intros sg a full d. unfold prepare, rmap. destruct (accepts sg a); [|split; [discriminate|intros [H _]; discriminate]].
  split.
  - intro H. destruct (rseq _) as [us|e] eqn:E; [|discriminate]. cbn [rbind] in H. injection H as <-. split; [reflexivity|]. split; [|reflexivity].
    intros p c Hi. assert (F := proj1 (rseq_ok _ _) (ex_intro _ us E)). rewrite Forall_map, Forall_forall in F. destruct (F (p, c) Hi) as [[] Hu]. exact Hu.
  - intros (_ & Hc & ->).
    assert (exists us, rseq (map (fun pc => run_check (snd pc) (arg sg a (fst pc))) (ps_checks sg)) = Ok us) as [us ->]; [|reflexivity].
    apply rseq_ok. rewrite Forall_map, Forall_forall. intros [p c] Hi. exists tt. apply Hc. exact Hi.
Qed.
Print Assumptions C57_accepted.
(** The keywords: each is a parameter of the function, and the parameters without
    default are given; otherwise the call raises TypeError. *)
Theorem C57_keywords : forall sg a,
  (accepts sg a = true <-> (forall k v, In (k, v) a -> In k (ps_params sg)) /\ (forall k, In k (firstn (ps_required sg) (ps_params sg)) -> exists v, In (k, v) a)) /\
  (accepts sg a = false -> forall full, prepare sg a full = Err TypeError).
Proof.
  intros sg a. split.
  - unfold accepts. rewrite andb_true_iff, !forallb_forall. split; intros [H1 H2]; split.
    + intros k v Hi. specialize (H1 _ Hi). apply existsb_exists in H1 as (k' & Hk & E). apply String.eqb_eq in E. cbn [fst] in E. subst. exact Hk.
    + intros k Hk. specialize (H2 _ Hk). apply existsb_exists in H2 as ([k' v] & Hi & E). apply String.eqb_eq in E. cbn [fst] in E. subst. eauto.
    + intros [k v] Hi. apply existsb_exists. exists k. split; [eauto|apply String.eqb_refl].
    + intros k Hk. destruct (H2 k Hk) as (v & Hi). apply existsb_exists. exists (k, v). split; [exact Hi|apply String.eqb_refl].
  - intros H full. unfold prepare. rewrite H. reflexivity.
Qed.
Print Assumptions C57_keywords.
Example C57_keywords_example : prepare sig18 [("cs_number", VInt 1)] false = Err TypeError /\ prepare siggroup2429 [("group_number", VInt 1)] false = Err TypeError.
Proof. split; vm_compute; reflexivity. Qed.

(** The tables of the thirteen functions store every parameter under its name. *)
Definition regular (sg : psig) : bool :=
  match ps_type sg with Some _ => true | None => false end
  && forallb (fun p => existsb (fun kp => String.eqb (fst kp) p && String.eqb (snd kp) p) (ps_store sg)) (ps_params sg)
  && forallb (fun kp => String.eqb (fst kp) (snd kp) && existsb (String.eqb (fst kp)) (ps_params sg)) (ps_store sg)
  && negb (existsb (String.eqb "type") (ps_params sg))
  && match ps_default sg with VNone => true | _ => false end
  && Nat.eqb (ps_required sg) 0.
Lemma sigs_regular : forall sg, In sg sigs -> regular sg = true.
Proof. assert (H : forallb regular sigs = true) by (vm_compute; reflexivity). intros sg Hi. rewrite forallb_forall in H. auto. Qed.
Lemma regular_type : forall sg, regular sg = true -> exists n, ps_type sg = Some n.
Proof. intros sg H. unfold regular in H. destruct (ps_type sg); [eauto|discriminate]. Qed.
Lemma dget_store : forall (f : string -> pyval) l k, (forall kp, In kp l -> fst kp = snd kp) ->
  dget (map (fun kp => (KS (fst kp), f (snd kp))) l) (KS k) = if existsb (String.eqb k) (map fst l) then Some (f k) else None.
Proof.
  intros f l k. induction l as [|[x y] l IH]; intro H; [reflexivity|]. cbn [map dget fst snd existsb]. cbn [key_eqb].
  destruct (String.eqb_spec k x) as [->|]; cbn [orb].
  - assert (E := H (x, y) (or_introl eq_refl)). cbn [fst snd] in E. rewrite <- E. reflexivity.
  - apply IH. intros kp Hk. apply H. right. exact Hk.
Qed.
Lemma regular_get : forall sg a k, regular sg = true -> k <> "type" ->
  dget (full_dict sg a) (KS k) = if existsb (String.eqb k) (ps_params sg) then Some (arg sg a k) else None.
Proof.
  intros sg a k H Hk. destruct (regular_type sg H) as [n Hn]. unfold regular in H. rewrite !andb_true_iff in H. destruct H as (((((_ & H1) & H2) & _) & _) & _).
  unfold full_dict. rewrite Hn. cbn [app dget key_eqb]. destruct (String.eqb_spec k "type") as [|_]; [contradiction|].
  rewrite forallb_forall in H1, H2. rewrite dget_store.
  - assert (E : existsb (String.eqb k) (map fst (ps_store sg)) = existsb (String.eqb k) (ps_params sg)); [|rewrite E; reflexivity].
    apply eq_true_iff_eq. rewrite !existsb_exists. split.
    + intros (x & Hx & Ex). apply String.eqb_eq in Ex. subst x. apply in_map_iff in Hx as ([k1 k2] & E & Hi). cbn in E. subst k1.
      specialize (H2 _ Hi). apply andb_true_iff in H2 as [_ H2]. cbn [fst] in H2. apply existsb_exists in H2. exact H2.
    + intros (x & Hx & Ex). apply String.eqb_eq in Ex. subst x. specialize (H1 _ Hx). apply existsb_exists in H1 as ([k1 k2] & Hi & E).
      cbn [fst snd] in E. apply andb_true_iff in E as [E1 _]. apply String.eqb_eq in E1. subst k1. exists k. split; [|apply String.eqb_refl].
      apply in_map_iff. exists (k, k2). auto.
  - intros [x y] Hi. specialize (H2 _ Hi). apply andb_true_iff in H2 as [H2 _]. apply String.eqb_eq. exact H2.
Qed.
Lemma full_keys : forall sg a kv, regular sg = true -> In kv (full_dict sg a) -> fst kv = KS "type" \/ exists k, fst kv = KS k /\ In k (ps_params sg).
Proof.
  intros sg a [k v] H Hi. destruct (regular_type sg H) as [n Hn]. unfold regular in H. rewrite !andb_true_iff in H. destruct H as (((((_ & H1) & H2) & _) & _) & _).
  unfold full_dict in Hi. rewrite Hn in Hi. destruct Hi as [E|Hi]; [left; injection E as <- _; reflexivity|]. right.
  apply in_map_iff in Hi as ([x y] & E & Hi). injection E as <- _. exists x. split; [reflexivity|]. rewrite forallb_forall in H2. specialize (H2 _ Hi).
  apply andb_true_iff in H2 as [_ H2]. apply existsb_exists in H2 as (z & Hz & E). apply String.eqb_eq in E. cbn [fst] in E. subst z. exact Hz.
Qed.
(** Keys of a table are distinct, so removing the entries without value does not uncover another entry. *)
Definition distinct_keys (sg : psig) : bool := if list_eq_dec string_dec (nodup string_dec (map fst (ps_store sg))) (map fst (ps_store sg)) then true else false.
Lemma sigs_distinct : forall sg, In sg sigs -> NoDup (map fst (ps_store sg)).
Proof.
  assert (H : forallb distinct_keys sigs = true) by (vm_compute; reflexivity). intros sg Hi. rewrite forallb_forall in H. specialize (H _ Hi). unfold distinct_keys in H.
  destruct (list_eq_dec _ _ _) as [E|]; [|discriminate]. rewrite <- E. apply NoDup_nodup.
Qed.
Lemma clean_get : forall d k, NoDup (map fst d) -> dget (check_dict_for_none d) k = match dget d k with Some VNone => None | o => o end.
Proof.
  induction d as [|[k' v] d IH]; intros k H; [reflexivity|]. inversion H as [|? ? Hn Hd]. subst. cbn [check_dict_for_none dget].
  destruct (is_none v) eqn:E.
  - destruct v; try discriminate. rewrite IH by exact Hd. destruct (key_eqb_spec k k') as [->|]; [|reflexivity].
    assert (G := proj2 (dget_None d k') Hn). rewrite G. reflexivity.
  - cbn [dget]. destruct (key_eqb k k'); [destruct v; try reflexivity; discriminate|]. apply IH. exact Hd.
Qed.
Lemma full_distinct : forall sg a, In sg sigs -> NoDup (map fst (full_dict sg a)).
Proof.
  intros sg a Hi. assert (R := sigs_regular _ Hi). assert (D := sigs_distinct _ Hi). destruct (regular_type _ R) as [n Hn]. unfold full_dict. rewrite Hn.
  cbn [app map fst]. rewrite map_map. cbn [fst]. constructor.
  - intro H. apply in_map_iff in H as ([x y] & E & Hx). cbn [fst] in E. injection E as ->. unfold regular in R. rewrite !andb_true_iff in R.
    destruct R as (((((_ & _) & R2) & R3) & _) & _). rewrite forallb_forall in R2. specialize (R2 _ Hx). apply andb_true_iff in R2 as [_ R2]. cbn [fst] in R2.
    rewrite R2 in R3. discriminate.
  - clear - D. induction (ps_store sg) as [|[x y] l IH]; [constructor|]. inversion D as [|? ? Hx Hl]. subst. cbn [map fst]. constructor; [|auto].
    intro H. apply in_map_iff in H as ([x' y'] & E & Hi). injection E as ->. apply Hx. apply in_map_iff. exists (x, y'). auto.
Qed.

(** [given a k]: the argument [k] of the call, [None] if it is left out. *)
Definition given (a : kwargs) (k : string) : pyval := match kwget a k with Some v => v | None => VNone end.
Lemma arg_given : forall sg a k, In sg sigs -> arg sg a k = given a k.
Proof.
  intros sg a k H. apply sigs_regular in H. unfold regular in H. rewrite !andb_true_iff in H. destruct H as (((((_ & _) & _) & _) & H) & _).
  unfold arg, given. destruct (ps_default sg); try discriminate. reflexivity.
Qed.
Theorem C57_values : forall sg a full d, In sg sigs -> prepare sg a full = Ok d ->
  (exists n, ps_type sg = Some n /\ dget d (KS "type") = Some (VInt n)) /\
  (forall k, In k (ps_params sg) -> dget d (KS k) = if negb full && is_none (given a k) then None else Some (given a k)) /\
  (forall key v, In (key, v) d -> key = KS "type" \/ exists k, key = KS k /\ In k (ps_params sg)).
Proof.
  intros sg a full d Hs H. apply C57_accepted in H as (_ & _ & ->). assert (R := sigs_regular _ Hs). assert (D := full_distinct sg a Hs).
  destruct (regular_type _ R) as [n Hn].
  assert (T : dget (full_dict sg a) (KS "type") = Some (VInt n)) by (unfold full_dict; rewrite Hn; reflexivity).
  assert (P : forall k, In k (ps_params sg) -> dget (full_dict sg a) (KS k) = Some (given a k)).
  { intros k Hk. rewrite regular_get; [|exact R|].
    - rewrite (proj2 (existsb_exists _ _)); [rewrite arg_given by exact Hs; reflexivity|]. exists k. split; [exact Hk|apply String.eqb_refl].
    - intros ->. unfold regular in R. rewrite !andb_true_iff in R. destruct R as (((((_ & _) & _) & R) & _) & _). apply negb_true_iff in R.
      assert (existsb (String.eqb "type") (ps_params sg) = true); [|congruence]. apply existsb_exists. exists "type". auto. }
  destruct full.
  - split; [eauto|]. split; [intros k Hk; rewrite P by exact Hk; reflexivity|]. intros key v Hi. exact (full_keys sg a (key, v) R Hi).
  - split; [exists n; split; [exact Hn|rewrite clean_get, T by exact D; reflexivity]|]. split.
    + intros k Hk. rewrite clean_get, P by assumption. destruct (given a k); reflexivity.
    + intros key v Hi. refine (full_keys sg a (key, v) R _). revert Hi. clear. generalize (full_dict sg a). induction d as [|[k' v'] d IH]; [auto|].
      cbn [check_dict_for_none]. destruct (is_none v'); intro H; [right; auto|]. destruct H as [H|H]; [left; exact H|right; auto].
Qed.
Print Assumptions C57_values.
Example C57_example : prepare sig15 [("node_nums", VArr DInt [VInt 1; VInt 2]); ("x", VList [VFloat f_zero; VFloat f_zero])] false =
  Ok [(KS "type", VInt 15); (KS "node_nums", VArr DInt [VInt 1; VInt 2]); (KS "x", VList [VFloat f_zero; VFloat f_zero])] /\
  prepare sig15 [("node_nums", VList [VFloat f_zero])] false = Err TypeError /\ prepare sig15 [("nodenums", VList [])] false = Err TypeError.
Proof. repeat split; vm_compute; reflexivity. Qed.

(* ------------------------------------------------------------------ *)
(** ** C57: what is rejected *)

Lemma unless_ok : forall b v e, e <> Unmodelled -> (unless_none b v e = Ok tt <-> b = true \/ v = VNone).
Proof.
  intros b v e He. unfold unless_none. destruct b; [split; auto|]. split.
  - intro H. right. destruct v; try reflexivity; cbn in H; try discriminate; destruct (length _) as [|[|]]; discriminate.
  - intros [H| ->]; [discriminate|reflexivity].
Qed.
Lemma dtype_ok : forall p v e, p KObj = false -> e <> Unmodelled -> (dtype_check p v e = Ok tt <-> v = VNone \/ exists k, np_kind v = Ok k /\ p k = true).
Proof.
  intros p v e Hp He. unfold dtype_check. destruct (np_kind v) as [k|x] eqn:E.
  - cbn [rbind]. rewrite unless_ok by exact He. split.
    + intros [H|H]; eauto.
    + intros [H|(k' & H & Hk)]; [auto|]. injection H as <-. auto.
  - split; [discriminate|]. intros [->|(k & H & _)]; discriminate.
Qed.
Lemma need_ok : forall b e, need b e = Ok tt <-> b = true.
Proof. intros [] e; split; intro H; try reflexivity; discriminate. Qed.

(** The values that each kind of check lets pass. *)
Definition admits (c : check) (v : pyval) : Prop :=
  match c with
  | CInt | CIntV | CIntIs => v = VNone \/ np_kind v = Ok KInt
  | CFloat | CFloatIs => v = VNone \/ np_kind v = Ok KFloat
  | CNum => v = VNone \/ np_kind v = Ok KInt \/ np_kind v = Ok KFloat \/ np_kind v = Ok KCplx
  | CFloatCplx => v = VNone \/ np_kind v = Ok KFloat \/ np_kind v = Ok KCplx
  | CStrT | CStrIs => v = VNone \/ exists s, v = VStr s
  | CIntT => v = VNone \/ exists z, v = VInt z
  | CFloatT => v = VNone \/ exists f, v = VFloat f
  | CIn zs => v = VNone \/ (exists z, In z zs /\ (py_eqZ v z = true \/ exists dt x, v = VArr dt [x] /\ py_eqZ x z = true))
  | CRange lo hi => v = VNone \/ exists z, (lo <= z < hi)%Z /\ py_eqZ v z = true
  | CSeq => v = VNone \/ (exists l, v = VList l) \/ (exists dt l, v = VArr dt l) \/ (exists dt l, v = VArr2 dt l)
  | CLen32 => v = VNone \/ (any_len v = Some 32 /\ (forall dt l, v <> VArr dt l) /\ forall dt rows, v = VArr2 dt rows -> length (concat rows) = 1)
  | CCsNames => v = VNone \/ (exists s, v = VStr s) \/ (exists l, v = VList l /\ Forall (fun x => exists s, x = VStr s) l) \/
                (exists l, v = VArr DStr l) \/ (exists dt, v = VArr dt []) \/ (exists dt, v = VArr2 dt [])
  | CCsTypes => forall x, (exists l, v = VList l /\ In x l) \/ (exists dt l, v = VArr dt l /\ In x l) \/ (exists dt l r, v = VArr2 dt l /\ In r l /\ x = VArr dt r) ->
                in_tuple [0; 1; 2]%Z false x = Ok true
  | GIntT => exists z, v = VInt z
  | GStrT => exists s, v = VStr s
  | GInt => np_kind v = Ok KInt
  | GNonneg => exists z, v = VInt z /\ (0 <= z)%Z
  | GNonempty => exists s, v = VStr s /\ s <> []
  end.
Lemma zrange_in : forall lo hi z, In z (zrange lo hi) <-> (lo <= z < hi)%Z.
Proof.
  intros lo hi z. unfold zrange. rewrite in_map_iff. split.
  - intros (k & <- & Hk). apply in_seq in Hk. lia.
  - intro H. exists (Z.to_nat (z - lo)). split; [lia|]. apply in_seq. lia.
Qed.
Lemma rmap_tt : forall A (f : A -> result unit) l, (do _ <- rmap f l ;; Ok tt) = Ok tt <-> forall x, In x l -> f x = Ok tt.
Proof.
  intros A f l. unfold rmap. split.
  - intro H. destruct (rseq (map f l)) as [us|] eqn:E; [|discriminate]. assert (F := proj1 (rseq_ok _ _) (ex_intro _ us E)).
    rewrite Forall_map, Forall_forall in F. intros x Hx. destruct (F x Hx) as [[] Hu]. exact Hu.
  - intro H. assert (exists us, rseq (map f l) = Ok us) as [us ->]; [|reflexivity]. apply rseq_ok. rewrite Forall_map, Forall_forall. intros x Hx. exists tt. auto.
Qed.
Lemma one_type : forall x, (do b <- in_tuple [0; 1; 2]%Z false x ;; need b ValueError) = Ok tt <-> in_tuple [0; 1; 2]%Z false x = Ok true.
Proof. intro x. destruct (in_tuple _ _ x) as [[]|]; cbn [rbind need]; split; intro H; try reflexivity; discriminate. Qed.
Ltac kinds := let H := fresh in let k := fresh in let E := fresh in
  rewrite dtype_ok by (reflexivity || discriminate); split; [intros [H|(k & E & H)]; [auto|destruct k; try discriminate; auto]|
  intro H; repeat destruct H as [H|H]; eauto].
Theorem C57_checks : forall c v, run_check c v = Ok tt <-> admits c v.
Proof.
  assert (In0 : forall zs none v, in_tuple zs none v = Ok true <-> (none = true /\ v = VNone) \/
    (exists z, In z zs /\ (py_eqZ v z = true \/ exists dt x, v = VArr dt [x] /\ py_eqZ x z = true))).
  { intros zs none v. split.
    - intro H. destruct v as [| | | | | | |dt [|x [|y r]]|dt rows|]; cbn [in_tuple] in H; try discriminate;
        try (injection H as H; apply existsb_exists in H as (w & Hz & E); right; exists w; eauto; fail).
      + injection H as ->. auto.
      + injection H as H. apply existsb_exists in H as (z & Hz & E). right. exists z. split; [exact Hz|]. right. eauto.
      + destruct (length (concat rows)) as [|[|]]; discriminate.
    - intros [[-> ->]|(z & Hz & [E|(dt & x & -> & E)])]; [reflexivity| |].
      + assert (X : existsb (py_eqZ v) zs = true) by (apply existsb_exists; eauto). destruct v; cbn [in_tuple]; try discriminate; rewrite X; reflexivity.
      + cbn [in_tuple]. f_equal. apply existsb_exists. eauto. }
  intros c v. destruct c; cbn [run_check admits]; try (kinds; fail).
  - rewrite unless_ok by discriminate. unfold v_str. split; [intros [H| ->]; [destruct v; try discriminate; eauto|auto]|intros [->|[s ->]]; auto].
  - rewrite unless_ok by discriminate. unfold v_int. split; [intros [H| ->]; [destruct v; try discriminate; eauto|auto]|intros [->|[s ->]]; auto].
  - rewrite unless_ok by discriminate. unfold v_float. split; [intros [H| ->]; [destruct v; try discriminate; eauto|auto]|intros [->|[s ->]]; auto].
  - specialize (In0 zs true v). destruct (in_tuple zs true v) as [[]|e]; cbn [rbind need].
    + split; [intros _|reflexivity]. destruct (proj1 In0 eq_refl) as [[_ E]|E]; auto.
    + split; [discriminate|]. intros [->|H]; [|exfalso]; assert (X : Ok false = Ok true) by (apply In0; auto); discriminate.
    + split; [discriminate|]. intros [->|H]; [|exfalso]; assert (X : @Err bool e = Ok true) by (apply In0; auto); discriminate.
  - assert (A : forall w, (forall l, w <> VList l) -> (forall dt l, w <> VArr dt l) -> (forall dt l, w <> VArr2 dt l) -> in_arange lo hi w = Ok (existsb (py_eqZ w) (zrange lo hi))).
    { intros w H1 H2 H3. destruct w; try reflexivity; exfalso; [eapply H1|eapply H2|eapply H3]; reflexivity. }
    destruct v; try (cbn [in_arange rbind]; split; [discriminate|]; intros [H|(w & _ & H)]; discriminate);
      (rewrite A by discriminate; cbn [rbind]; rewrite unless_ok by discriminate; rewrite existsb_exists; split;
       [intros [(w & Hz & E)|E]; [right; exists w; rewrite <- zrange_in; auto|auto]|intros [E|(w & Hz & E)]; [auto|left; exists w; rewrite zrange_in; auto]]).
  - rewrite unless_ok by discriminate. unfold v_seq. split; [intros [H| ->]; [destruct v; try discriminate; eauto 6|auto]|intros [->|[[l ->]|[(dt & l & ->)|(dt & l & ->)]]]; auto].
  - unfold dtype_check_is. destruct (np_kind v) as [k|] eqn:E; cbn [rbind].
    + rewrite need_ok, orb_true_iff. split; [intros [H|H]; [destruct k; try discriminate; auto|destruct v; try discriminate; auto]|intros [->|H]; [auto|injection H as ->; auto]].
    + split; [discriminate|]. intros [->|H]; discriminate.
  - unfold dtype_check_is. destruct (np_kind v) as [k|] eqn:E; cbn [rbind].
    + rewrite need_ok, orb_true_iff. split; [intros [H|H]; [destruct k; try discriminate; auto|destruct v; try discriminate; auto]|intros [->|H]; [auto|injection H as ->; auto]].
    + split; [discriminate|]. intros [->|H]; discriminate.
  - rewrite need_ok, orb_true_iff. unfold v_str. split; [intros [H|H]; destruct v; try discriminate; eauto|intros [->|[s ->]]; auto].
  - destruct v; cbn [ne_none rbind any_len]; rewrite ?need_ok;
      try (split; [try discriminate; auto|intros [H|[H _]]; discriminate]; fail);
      try (rewrite ?Nat.eqb_eq; split; [intro H; right; split; [f_equal; exact H|split; discriminate]|intros [H|[H _]]; [discriminate|injection H as H; exact H]]; fail).
    + split; auto.
    + split.
      * destruct l as [|x [|y r]]; cbn [length rbind need any_len Nat.eqb]; discriminate.
      * intros [H|(_ & H & _)]; [discriminate|]. destruct (H dt l eq_refl).
    + split.
      * destruct (length (concat rows)) as [|[|]] eqn:E; cbn [rbind]; try discriminate. rewrite need_ok, Nat.eqb_eq. intro H. right. split; [f_equal; exact H|].
        split; [discriminate|]. intros dt' rows' X. injection X as _ <-. exact E.
      * intros [H|(H & _ & G)]; [discriminate|]. rewrite (G dt rows eq_refl). cbn [rbind]. rewrite need_ok, Nat.eqb_eq. injection H as H. exact H.
  - unfold cs_types. destruct v as [| | | | | |l|dt l|dt l|];
      try (split; [intros _ x [(l & E & _)|[(dt & l & E & _)|(dt & l & r & E & _)]]; discriminate|reflexivity]).
    + rewrite rmap_tt. split.
      * intros H x [(l' & E & Hx)|[(dt & l' & E & _)|(dt & l' & r & E & _)]]; try discriminate. injection E as <-. apply one_type. auto.
      * intros H x Hx. apply one_type, H. left. eauto.
    + rewrite rmap_tt. split.
      * intros H x [(l' & E & Hx)|[(dt' & l' & E & Hx)|(dt' & l' & r & E & _)]]; try discriminate. injection E as _ <-. apply one_type. auto.
      * intros H x Hx. apply one_type, H. right. left. eauto.
    + rewrite rmap_tt. split.
      * intros H x [(l' & E & Hx)|[(dt' & l' & E & _)|(dt' & l' & r & E & Hr & ->)]]; try discriminate. injection E as <- <-. apply one_type. auto.
      * intros H x Hx. apply one_type, H. right. right. eauto 6.
  - unfold cs_names. destruct v as [| | | | |s|l|dt l|dt l|]; try (split; [discriminate|]; intros [H|[[s H]|[(l & H & _)|[[l H]|[[dt H]|[dt H]]]]]]; discriminate).
    + split; auto.
    + split; eauto.
    + rewrite need_ok, forallb_forall. split.
      * intro H. right. right. left. exists l. split; [reflexivity|]. apply Forall_forall. intros x Hx. specialize (H x Hx). destruct x; try discriminate. eauto.
      * intros [H|[[s H]|[(l' & H & F)|[[l' H]|[[dt H]|[dt H]]]]]]; try discriminate. injection H as <-. intros x Hx. rewrite Forall_forall in F. destruct (F x Hx) as [s ->]. reflexivity.
    + split.
      * destruct dt; try (destruct l; [intros _; eauto 7|discriminate]). intros _. eauto 7.
      * intros [H|[[s H]|[(l' & H & F)|[[l' H]|[[dt' H]|[dt' H]]]]]]; try discriminate; injection H as H1 H2; subst; [reflexivity|destruct dt'; reflexivity].
    + split.
      * destruct l; [intros _; eauto 7|discriminate].
      * intros [H|[[s H]|[(l' & H & F)|[[l' H]|[[dt' H]|[dt' H]]]]]]; try discriminate; injection H as H1 H2; subst; reflexivity.
  - rewrite need_ok. unfold v_int. split; [destruct v; try discriminate; eauto|intros [z ->]; reflexivity].
  - rewrite need_ok. unfold v_str. split; [destruct v; try discriminate; eauto|intros [z ->]; reflexivity].
  - destruct (np_kind v) as [k|]; cbn [rbind]; [|split; discriminate]. rewrite need_ok. split; [destruct k; try discriminate; auto|intro H; injection H as ->; reflexivity].
  - destruct v; try (split; [discriminate|intros (z' & H & _); discriminate]). rewrite need_ok, Z.leb_le. split; [intro H; eauto|intros (z' & E & H); injection E as ->; exact H].
  - destruct v as [| | | | |s| | | |]; try (split; [discriminate|intros (z' & H & _); discriminate]). rewrite need_ok. split.
    + intro H. exists s. split; [reflexivity|]. intros ->. discriminate.
    + intros (s' & E & H). injection E as <-. destruct s; [contradiction|reflexivity].
Qed.
Print Assumptions C57_checks.

(** The leaves of a value whose numpy type is [k] have at most this type in the
    order bool, int, float, complex, str. *)
Fixpoint under (k : kind) (v : pyval) : bool :=
  match v with
  | VNone | VDict _ => match k with KObj => true | _ => false end
  | VBool _ => true
  | VInt z => int64_ok z && Nat.leb 1 (rank k)
  | VFloat _ => Nat.leb 2 (rank k)
  | VCplx _ _ => Nat.leb 3 (rank k)
  | VStr _ => Nat.leb 4 (rank k)
  | VList l => forallb (under k) l
  | VArr dt _ | VArr2 dt _ => Nat.leb (rank (kind_of dt)) (rank k)
  end.
Lemma pyval_list_ind : forall P : pyval -> Prop, (forall v, (forall l, v <> VList l) -> P v) -> (forall l, Forall P l -> P (VList l)) -> forall v, P v.
Proof.
  intros P H1 H2. fix rec 1. intro v. destruct v as [| | | | | |l| | |]; try (apply H1; discriminate). apply H2.
  induction l as [|x l IH]; constructor; [apply rec|exact IH].
Qed.
Lemma under_mono : forall v a b, rank a <= rank b -> under a v = true -> under b v = true.
Proof.
  intro v. induction v as [v Hv|l IH] using pyval_list_ind; intros a b Hab H.
  - destruct v; cbn [under] in *; rewrite ?andb_true_iff, ?Nat.leb_le in *; try lia; try (split; [tauto|lia]); try (exfalso; eapply Hv; reflexivity);
      try (destruct a, b; cbn in *; try lia; congruence); reflexivity.
  - cbn [under] in *. rewrite forallb_forall in *. rewrite Forall_forall in IH. intros x Hx. eapply IH; eauto.
Qed.
Lemma promote_rank : forall a b, rank a <= rank (promote a b) /\ rank b <= rank (promote a b).
Proof. intros a b. unfold promote. destruct (Nat.ltb_spec (rank a) (rank b)); lia. Qed.
Lemma kind_under : forall v k, deep_kind v = Ok k -> under k v = true.
Proof.
  intro v. induction v as [v Hv|l IH] using pyval_list_ind; intros k H.
  - destruct v; cbn [deep_kind] in H; try (injection H as <-; cbn; try reflexivity; rewrite ?Nat.leb_refl; reflexivity).
    + destruct (int64_ok z) eqn:E; [|discriminate]. injection H as <-. cbn. rewrite E. reflexivity.
    + exfalso. eapply Hv. reflexivity.
  - destruct l as [|x l]; [reflexivity|]. inversion IH as [|? ? Hx Hl]. subst. cbn [deep_kind] in H. cbn [under forallb].
    assert (G : forall acc, fold_left (fun acc y => do a <- acc ;; do b <- deep_kind y ;; Ok (promote a b)) l acc = Ok k ->
      exists a, acc = Ok a /\ rank a <= rank k /\ forallb (under k) l = true).
    { clear H Hx IH. induction l as [|y l IHl]; intros acc H; cbn [fold_left] in H.
      - exists k. auto.
      - inversion Hl as [|? ? Hy Hl']. subst.
        destruct (IHl Hl' _ H) as (a & E & Ha & Hall). destruct acc as [a0|]; [|discriminate]. cbn [rbind] in E.
        destruct (deep_kind y) as [b|] eqn:Eb; [|discriminate]. cbn [rbind] in E. injection E as <-. destruct (promote_rank a0 b) as [R1 R2].
        exists a0. split; [reflexivity|]. split; [lia|]. cbn [forallb]. rewrite Hall. rewrite (under_mono y b k) by (lia || auto). reflexivity. }
    destruct (G _ H) as (a & Ea & Ra & ->). rewrite (under_mono x a k Ra) by auto. reflexivity.
Qed.
(** A value with numpy type int consists of integers of 64 bits and Booleans, one with
    type float of these and floats. *)
Theorem C57_leaves : forall v k, np_kind v = Ok k -> under k v = true.
Proof. intros v k H. unfold np_kind in H. destruct (shape v); [|discriminate]. apply kind_under. exact H. Qed.
Print Assumptions C57_leaves.
(** Flat lists and arrays of integers (floats) have that type. *)
Theorem C57_int_list : forall zs, zs <> [] -> Forall (fun z => int64_ok z = true) zs -> np_kind (VList (map VInt zs)) = Ok KInt.
Proof.
  intros zs Hn H. destruct zs as [|z zs]; [contradiction|]. inversion H as [|? ? Hz Hr]. subst. unfold np_kind.
  assert (S : shape (VList (map VInt (z :: zs))) <> None).
  { cbn [map shape]. match goal with |- context [forallb ?f ?l] => assert (E : forallb f l = true) end; [|rewrite E; discriminate].
    apply forallb_forall. intros x Hx. apply in_map_iff in Hx as (y & <- & _). reflexivity. }
  destruct (shape _); [|contradiction]. cbn [map deep_kind]. rewrite Hz. clear S Hz H Hn. induction zs as [|y zs IH]; [reflexivity|].
  inversion Hr as [|? ? Hy Hr']. subst. cbn [map fold_left rbind deep_kind]. rewrite Hy. cbn [rbind]. apply IH. exact Hr'.
Qed.
Print Assumptions C57_int_list.
Theorem C57_float_list : forall fs, np_kind (VList (map VFloat fs)) = Ok KFloat.
Proof.
  intros fs. destruct fs as [|z fs]; [reflexivity|]. unfold np_kind.
  assert (S : shape (VList (map VFloat (z :: fs))) <> None).
  { cbn [map shape]. match goal with |- context [forallb ?f ?l] => assert (E : forallb f l = true) end; [|rewrite E; discriminate].
    apply forallb_forall. intros x Hx. apply in_map_iff in Hx as (y & <- & _). reflexivity. }
  destruct (shape _); [|contradiction]. cbn [map deep_kind]. clear S. induction fs as [|y fs IH]; [reflexivity|]. cbn [map fold_left rbind deep_kind]. apply IH.
Qed.
Print Assumptions C57_float_list.

(** *** What is not rejected or wrongly rejected *)

(** prepare_18 accepts every value. *)
Theorem C57_18_refuted : forall a full, accepts sig18 a = true -> exists d, prepare sig18 a full = Ok d.
Proof. intros a full H. unfold prepare. rewrite H. cbn. eauto. Qed.
Print Assumptions C57_18_refuted.
Example C57_18_example : prepare sig18 [("cs_num", VStr (lit "one"))] false = Ok [(KS "type", VInt 18); (KS "cs_num", VStr (lit "one"))].
Proof. vm_compute. reflexivity. Qed.
(** Arguments of the other functions without check. *)
Definition unchecked (sg : psig) : list string := filter (fun p => negb (existsb (fun pc => String.eqb p (fst pc)) (ps_checks sg))) (ps_params sg).
Theorem C57_unchecked : map unchecked sigs =
  [[]; ps_params sig18; ["modal_m"]; ["x"; "spec_data_type"; "byte_ordering"; "fp_format"; "n_ascii_lines"; "n_bytes"]; []; []; []; []; []; []; []; []; []].
Proof. vm_compute. reflexivity. Qed.
Print Assumptions C57_unchecked.
(** prepare_2400 rejects every array of 32 numbers as status mask, although it asks
    for 32 numbers. *)
Theorem C57_mask_refuted : forall a full dt l d, given a "status_mask" = VArr dt l -> prepare sig2400 a full <> Ok d.
Proof.
  intros a full dt l d H E. apply C57_accepted in E as (_ & E & _). specialize (E "status_mask" CLen32 ltac:(cbn [ps_checks sig2400 In]; auto 10)).
  rewrite arg_given, H in E by (unfold sigs; cbn [In]; auto 20). apply C57_checks in E. destruct E as [E|(_ & E & _)]; [discriminate|]. destruct (E dt l eq_refl).
Qed.
Print Assumptions C57_mask_refuted.
Example C57_mask_example : prepare sig2400 [("status_mask", VArr DInt (repeat (VInt 0) 32))] false = Err ValueError /\
  prepare sig2400 [("status_mask", VList (repeat (VInt 0) 32))] false = Ok [(KS "type", VInt 2400); (KS "status_mask", VList (repeat (VInt 0) 32))] /\
  prepare sig2400 [("status_mask", VStr (repeat 65%N 32))] false = Ok [(KS "type", VInt 2400); (KS "status_mask", VStr (repeat 65%N 32))].
Proof. repeat split; vm_compute; reflexivity. Qed.

(* ------------------------------------------------------------------ *)
(** ** C52: prepare_group *)

Definition group_get (sg : psig) (a : kwargs) (k : string) : option pyval := dget (full_dict sg a) (KS k).
Lemma clean_notnone : forall d, Forall (fun kv => is_none (snd kv) = false) d -> check_dict_for_none d = d.
Proof. induction d as [|[k v] d IH]; intro H; [reflexivity|]. inversion H as [|? ? H1 H2]. subst. cbn [check_dict_for_none snd] in *. rewrite H1, IH by assumption. reflexivity. Qed.
(** An accepted call has no None among the stored arguments. *)
Lemma checked_notnone : forall v, run_check GIntT v = Ok tt \/ run_check GStrT v = Ok tt \/ run_check GInt v = Ok tt -> is_none v = false.
Proof. intros v [H|[H|H]]; apply C57_checks in H; cbn [admits] in H; [destruct H as [z ->]|destruct H as [z ->]|]; try reflexivity. destruct v; try reflexivity. discriminate. Qed.
Definition strict (sg : psig) : bool :=
  forallb (fun kp => existsb (fun pc => String.eqb (fst pc) (snd kp) && match snd pc with GIntT | GStrT | GInt => true | _ => false end) (ps_checks sg)) (ps_store sg).
Lemma strict_result : forall sg a full d, strict sg = true -> ps_type sg = None -> prepare sg a full = Ok d -> d = full_dict sg a.
Proof.
  intros sg a full d Hs Ht H. apply C57_accepted in H as (_ & Hc & ->). destruct full; [reflexivity|]. apply clean_notnone. unfold full_dict. rewrite Ht. cbn [app].
  rewrite Forall_map, Forall_forall. intros [k p] Hi. cbn [fst snd]. unfold strict in Hs. rewrite forallb_forall in Hs. specialize (Hs _ Hi).
  apply existsb_exists in Hs as ([p' c] & Hp & E). cbn [fst snd] in E. apply andb_true_iff in E as [E1 E2]. apply String.eqb_eq in E1. subst p'.
  specialize (Hc _ _ Hp). apply checked_notnone. destruct c; try discriminate; auto.
Qed.
Definition temp_key : string := "active_temperature_set_no_for_group".
Definition cont_key : string := "active_contact_set_no_for_group".
Definition dof_key : string := "active_dof_set_no_for_group".
(** Both functions store the degree-of-freedom set number under temperature and
    contact, whatever was given there; the other arguments are stored under their names. *)
Theorem C52_refuted : forall sg a full d, sg = siggroup2429 \/ sg = siggroup2467 -> prepare sg a full = Ok d ->
  dget d (KS temp_key) = Some (arg sg a dof_key) /\ dget d (KS cont_key) = Some (arg sg a dof_key) /\
  (forall k, In k (ps_params sg) -> k <> temp_key -> k <> cont_key -> dget d (KS k) = Some (arg sg a k)).
Proof.
  intros sg a full d Hs H. assert (E : d = full_dict sg a) by (apply strict_result with (full := full); destruct Hs as [-> | ->]; try assumption; vm_compute; reflexivity).
  subst d. clear H. split; [destruct Hs as [-> | ->]; reflexivity|]. split; [destruct Hs as [-> | ->]; reflexivity|].
  intros k Hk N1 N2. destruct Hs as [-> | ->]; cbn [ps_params siggroup2429 siggroup2467 In] in Hk;
    repeat (destruct Hk as [<- | Hk]; [first [reflexivity | contradiction (N1 eq_refl) | contradiction (N2 eq_refl)]|]); contradiction.
Qed.
Print Assumptions C52_refuted.
Definition g52 : kwargs := [("group_number", VInt 1); ("group_name", VStr (lit "g")); ("entity_type_code", VList [VInt 8]); ("entity_tag", VList [VInt 1]);
  ("active_temperature_set_no_for_group", VInt 7)].
Example C52_example : exists d, prepare siggroup2429 g52 false = Ok d /\ dget d (KS temp_key) = Some (VInt 0) /\ kwget g52 temp_key = Some (VInt 7).
Proof. eexists. split; [vm_compute; reflexivity|]. split; vm_compute; reflexivity. Qed.
(** A call is accepted exactly if the number and the set numbers are a
    non-negative int, the name is a non-empty str and the lists have numpy type int. *)
Theorem C52_accepted : forall a full, (exists d, prepare siggroup2429 a full = Ok d) <->
  accepts siggroup2429 a = true /\
  (exists z, arg siggroup2429 a "group_number" = VInt z /\ (0 <= z)%Z) /\ (exists s, arg siggroup2429 a "group_name" = VStr s /\ s <> []) /\
  np_kind (arg siggroup2429 a "entity_type_code") = Ok KInt /\ np_kind (arg siggroup2429 a "entity_tag") = Ok KInt /\
  forall k, In k set_keys -> exists z, arg siggroup2429 a k = VInt z /\ (0 <= z)%Z.
Proof.
  intros a full. split.
  - intros [d H]. apply C57_accepted in H as (H1 & H & _). split; [exact H1|]. clear H1.
    assert (G : forall p c, In (p, c) (ps_checks siggroup2429) -> admits c (arg siggroup2429 a p)) by (intros p c Hi; apply C57_checks; auto). clear H.
    split; [exact (G "group_number" GNonneg ltac:(cbn; auto 20))|]. split; [exact (G "group_name" GNonempty ltac:(cbn; auto 20))|].
    split; [exact (G "entity_type_code" GInt ltac:(cbn; auto 20))|]. split; [exact (G "entity_tag" GInt ltac:(cbn; auto 20))|].
    intros k Hk. refine (G k GNonneg _). cbn [set_keys In] in Hk. cbn. intuition (subst; auto 30).
  - intros (H0 & [z [E1 P1]] & [s [E2 P2]] & E3 & E4 & E5). eexists. apply C57_accepted. split; [exact H0|]. split; [|reflexivity].
    intros p c Hi. apply C57_checks. cbn [ps_checks siggroup2429 In] in Hi.
    repeat (destruct Hi as [Hi|Hi]; [injection Hi as <- <-; cbn [admits]; first
      [rewrite E1; eauto; fail|rewrite E2; eauto; fail|assumption
      |match goal with |- context [arg siggroup2429 a ?k] => destruct (E5 k ltac:(cbn; auto 10)) as (y & -> & Hy) end; eauto; fail]|]). contradiction.
Qed.
Print Assumptions C52_accepted.

(** prepare_2467 calls its [prepare_group] without the leaf and component numbers:
    these are not checked, and four of the six set numbers are checked in place of
    others, the first two for their numpy type only. *)
Theorem C57_2467_refuted : forall l full, Forall (fun it => exists d, it = VDict d /\
    (exists z, dget d (KS "group_number") = Some (VInt z) /\ (0 <= z)%Z) /\ (exists s, dget d (KS "group_name") = Some (VStr s) /\ s <> []) /\
    (exists v, dget d (KS "entity_type_code") = Some v /\ np_kind v = Ok KInt) /\ (exists v, dget d (KS "entity_tag") = Some v /\ np_kind v = Ok KInt) /\
    (exists v, dget d (KS "active_constraint_set_no_for_group") = Some v /\ np_kind v = Ok KInt) /\
    (exists v, dget d (KS "active_restraint_set_no_for_group") = Some v /\ np_kind v = Ok KInt) /\
    Forall (fun k => exists z, dget d (KS k) = Some (VInt z) /\ (0 <= z)%Z) (skipn 2 set_keys)) l ->
  prepare_2467 (VList l) full = Ok [(KS "type", VInt 2467); (KS "groups", VList l)].
Proof.
  intros l full H. unfold prepare_2467, prepare_groups.
  match goal with |- (do _ <- rmap ?f l ;; _) = _ => assert (E : exists r, rmap f l = Ok r) end.
  { unfold rmap. apply rseq_ok. rewrite Forall_map. eapply Forall_impl; [|exact H]. clear. intros it (d & -> & (z & G1 & P1) & (s & G2 & P2) & (v3 & G3 & P3) & (v4 & G4 & P4) & (v5 & G5 & P5) & (v6 & G6 & P6) & G).
    cbn [set_keys skipn] in G. repeat match goal with X : Forall _ (_ :: _) |- _ => inversion X as [|? ? (? & ? & ?) ?]; subst; clear X end.
    unfold group_values, set_keys, rmap. cbn [map rseq vix]. unfold ix. rewrite G1, G2, G3, G4, G5, G6.
    repeat match goal with X : dget d (KS ?k) = Some (VInt _) |- _ => rewrite X; clear X end. cbn [rbind rseq combine ps_params siggroup2467].
    eexists. apply C57_accepted. split; [vm_compute; reflexivity|]. split; [|reflexivity].
    intros p c Hi. apply C57_checks. cbn [ps_checks siggroup2467 In] in Hi.
    repeat (destruct Hi as [Hi|Hi]; [injection Hi as <- <-; cbn [arg kwget String.eqb Ascii.eqb Bool.eqb ps_default siggroup2467 admits]; first [assumption|eauto; fail|exists 0%Z; split; [reflexivity|lia]]|]).
    contradiction. }
  destruct E as [r ->]. cbn [rbind check_dict_for_none is_none]. destruct full; reflexivity.
Qed.
Print Assumptions C57_2467_refuted.
Definition g2467bad : dict := [(KS "group_number", VInt 1); (KS "group_name", VStr (lit "g")); (KS "entity_type_code", VList [VInt 8]); (KS "entity_tag", VList [VInt 1]);
  (KS "entity_node_leaf_id", VStr (lit "none")); (KS "active_constraint_set_no_for_group", VInt (-5)); (KS "active_restraint_set_no_for_group", VList [VInt 1]);
  (KS "active_load_set_no_for_group", VInt 0); (KS "active_dof_set_no_for_group", VInt 0); (KS "active_temperature_set_no_for_group", VInt 0); (KS "active_contact_set_no_for_group", VInt 0)].
Example C57_2467_example : prepare_2467 (VList [VDict g2467bad]) false = Ok [(KS "type", VInt 2467); (KS "groups", VList [VDict g2467bad])] /\
  prepare siggroup2467 [("group_number", VInt 1); ("group_name", VStr (lit "g")); ("entity_type_code", VList [VInt 8]); ("entity_tag", VList [VInt 1]);
    ("entity_node_leaf_id", VStr (lit "none")); ("entity_component_id", VList [VInt 0])] false = Err TypeError.
Proof. split; vm_compute; reflexivity. Qed.

(** What [prepare_2429] and [prepare_2467] return. *)
Lemma groups_result : forall n sg v full d, prepare_groups n sg v full = Ok d -> exists l, v = VList l /\ d = [(KS "type", VInt n); (KS "groups", VList l)].
Proof.
  intros n sg v full d H. destruct v as [| | | | | |l| | |]; try discriminate. cbn [prepare_groups] in H. destruct (rmap _ l) as [r|]; [|discriminate].
  cbn [rbind check_dict_for_none is_none] in H. exists l. split; [reflexivity|]. destruct full; injection H as <-; reflexivity.
Qed.
Theorem C57_groups : forall v full d, (prepare_2429 v full = Ok d -> exists l, v = VList l /\ d = [(KS "type", VInt 2429); (KS "groups", VList l)]) /\
  (prepare_2467 v full = Ok d -> exists l, v = VList l /\ d = [(KS "type", VInt 2467); (KS "groups", VList l)]).
Proof. intros v full d. split; apply groups_result. Qed.
Print Assumptions C57_groups.
(** prepare_2429 returns the set only if each group would be accepted by prepare_group. *)
Theorem C57_2429_checked : forall l full d it, prepare_2429 (VList l) full = Ok d -> In it l ->
  (exists z, vix it "group_number" = Ok (VInt z) /\ (0 <= z)%Z) /\ (exists s, vix it "group_name" = Ok (VStr s) /\ s <> []) /\
  (exists v, vix it "entity_type_code" = Ok v /\ np_kind v = Ok KInt) /\ (exists v, vix it "entity_tag" = Ok v /\ np_kind v = Ok KInt) /\
  forall k, In k set_keys -> exists z, vix it k = Ok (VInt z) /\ (0 <= z)%Z.
Proof.
  intros l full d it H Hi. unfold prepare_2429, prepare_groups in H. destruct (rmap _ l) as [r|] eqn:E; [|discriminate]. clear H.
  unfold rmap in E. assert (F := proj1 (rseq_ok _ _) (ex_intro _ r E)). rewrite Forall_map, Forall_forall in F. destruct (F it Hi) as [d' Hd]. clear E F.
  destruct (group_values it) as [vs|] eqn:Ev; [|discriminate]. cbn [rbind] in Hd.
  unfold group_values, rmap, set_keys in Ev. cbn [map rseq] in Ev.
  repeat match type of Ev with context [vix it ?k] => let v := fresh "v" in let E := fresh "E" in destruct (vix it k) as [v|] eqn:E; [cbn [rbind] in Ev|discriminate] end.
  injection Ev as <-. assert (Ex : exists d, prepare siggroup2429 (combine (ps_params siggroup2429) [v; v0; v1; v2; v3; v4; v5; v6; v7; v8]) false = Ok d) by eauto.
  apply C52_accepted in Ex as (_ & (z & A1 & B1) & (s & A2 & B2) & A3 & A4 & A5). cbn in A1, A2, A3, A4.
  split; [exists z; split; [f_equal; exact A1|exact B1]|]. split; [exists s; split; [f_equal; exact A2|exact B2]|]. split; [eauto|]. split; [eauto|].
  intros k Hk. destruct (A5 k Hk) as (y & C1 & C2). exists y. split; [|exact C2]. rewrite <- C1. cbn [set_keys In] in Hk.
  repeat (destruct Hk as [<- | Hk]; [cbn; assumption|]). contradiction.
Qed.
Print Assumptions C57_2429_checked.

(** C49: no set built by prepare_2429 can be written. *)
Theorem C49_prepared_refuted : forall v full d, prepare_2429 v full = Ok d -> forall c m fd file u, exists f u' e,
  write_sets c file u [d] (mode_name m) fd = (f, u', Some e).
Proof.
  intros v full d H c m fd file u. apply C57_groups in H as (l & _ & ->). destruct (write2429_fails c m fd file u l) as (f & u' & E). eauto.
Qed.
Print Assumptions C49_prepared_refuted.
Definition g49 : pyval := VDict [(KS "group_number", VInt 1); (KS "group_name", VStr (lit "g")); (KS "entity_type_code", VList [VInt 8]); (KS "entity_tag", VList [VInt 1]);
  (KS "active_constraint_set_no_for_group", VInt 5); (KS "active_restraint_set_no_for_group", VInt 0);
  (KS "active_load_set_no_for_group", VInt 0); (KS "active_dof_set_no_for_group", VInt 0); (KS "active_temperature_set_no_for_group", VInt 0); (KS "active_contact_set_no_for_group", VInt 0)].
Example C49_prepared_example : prepare_2429 (VList [g49]) false = Ok [(KS "type", VInt 2429); (KS "groups", VList [g49])].
Proof. vm_compute. reflexivity. Qed.
