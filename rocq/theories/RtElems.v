(** Storing and reading back elements (data set 2412). *)
From Verif Require Import PyBase PyNum PyVal Utf8 Tools DsNodes DsHeaders DsGroups Uff Facts IntFacts FloatFacts DecFacts FloatText FloatExact DictFacts
  Scan Container Append ContainerThms Utf8Facts Lines Stored Cells Rows RtNodes RtCs RtHeads.
From Coq Require Import Lia.
Open Scope nat_scope.
Open Scope list_scope.

(** An element; [e_beam] (orientation, fore-end and aft-end cross section) only
    matters for beam elements, which the documentation gives a record of their own
    (dataset_2412.py:25-32) and the reader takes to be those with descriptor 11 or 21 to 24. *)
Record elem := { e_num : Z; e_desc : Z; e_phys : Z; e_mat : Z; e_color : Z; e_count : Z; e_beam : Z * Z * Z; e_nodes : list Z }.
Definition is_beam (e : elem) : bool := existsb (Z.eqb (e_desc e)) [11; 21; 22; 23; 24]%Z.
Lemma beam_rod : forall e, is_rod (e_desc e) = is_beam e.
Proof. intro e. reflexivity. Qed.
Definition repr_elem (v : pyval) (e : elem) : Prop := exists d, v = VDict d /\
  has as_int d "element_nums" (e_num e) /\
  has (fun v z => as_int v z /\ py_eqZ v 11 = (z =? 11)%Z) d "fe_descriptor" (e_desc e) /\
  has as_int d "phys_table" (e_phys e) /\ has as_int d "mat_table" (e_mat e) /\ has as_int d "color" (e_color e) /\
  has as_int d "num_nodes" (e_count e) /\ has (seq_of as_int) d "nodes_nums" (e_nodes e) /\
  (is_beam e = true -> let '(a, b, c) := e_beam e in
     has as_int d "beam_orientation" a /\ has as_int d "beam_foreend_cross" b /\ has as_int d "beam_aftend_cross" c).
(** The elements under the integer keys, in the order of the dictionary. *)
Fixpoint elems_of (d : dict) (l : list elem) : Prop :=
  match d with
  | [] => l = []
  | (KS _, _) :: r => elems_of r l
  | (KI _, v) :: r => exists a b, l = a ++ b /\ seq_of repr_elem v a /\ elems_of r b
  end.
Definition repr2412 (d : dict) (l : list elem) : Prop :=
  dget d (KS "type") = Some (VInt 2412) /\ dget d (KS "data") = None /\ elems_of d l.
(** Beam elements other than 11 are read with a line that is not written for them. *)
Definition wf_elem (e : elem) : Prop :=
  fits 10 (e_num e) /\ Forall (fits 9) [e_desc e; e_phys e; e_mat e; e_color e; e_count e] /\ e_count e <> (-1)%Z /\
  is_beam e = (e_desc e =? 11)%Z /\
  (is_beam e = true -> let '(a, b, c) := e_beam e in Forall (fits 9) [a; b; c] /\ c <> (-1)%Z) /\
  Forall (fun z => fits 9 z /\ z <> (-1)%Z) (e_nodes e).
Definition wf2412 (l : list elem) : Prop := Forall wf_elem l.

Definition elem_out (e : elem) : dict :=
  [(KS "element_nums", VInt (e_num e)); (KS "fe_descriptor", VInt (e_desc e)); (KS "phys_table", VInt (e_phys e));
   (KS "mat_table", VInt (e_mat e)); (KS "color", VInt (e_color e)); (KS "num_nodes", VInt (e_count e))] ++
  (if is_beam e then let '(a, b, c) := e_beam e in
     [(KS "beam_orientation", VInt a); (KS "beam_foreend_cross", VInt b); (KS "beam_aftend_cross", VInt c)] else []) ++
  [(KS "nodes_nums", VList (map VInt (e_nodes e)))].
(** The distinct members of a list in the order of first appearance. *)
Fixpoint firsts (l : list Z) : list Z :=
  match l with [] => [] | a :: r => a :: filter (fun b => negb (b =? a)%Z) (firsts r) end.
Definition with_desc (k : Z) (l : list elem) : list elem := filter (fun e => (e_desc e =? k)%Z) l.
Definition groups2412 (l : list elem) : dict :=
  map (fun k => (KI k, VList (map (fun e => VDict (elem_out e)) (with_desc k l)))) (firsts (map e_desc l)).
(** The older form kept for triangles and quadrilaterals: one list per attribute. *)
Definition columns2412 (l : list elem) : dict :=
  [(KS "element_nums", VList (map (fun e => VInt (e_num e)) l)); (KS "fe_descriptor", VList (map (fun e => VInt (e_desc e)) l));
   (KS "phys_table", VList (map (fun e => VInt (e_phys e)) l)); (KS "mat_table", VList (map (fun e => VInt (e_mat e)) l));
   (KS "color", VList (map (fun e => VInt (e_color e)) l)); (KS "num_nodes", VList (map (fun e => VInt (e_count e)) l));
   (KS "nodes_nums", VList (map (fun e => VList (map VInt (e_nodes e))) l))].
Definition legacy2412 (name : string) (k : Z) (l : list elem) : dict :=
  match with_desc k l with [] => [] | es => [(KS name, VDict (columns2412 es))] end.
Definition read2412 (l : list elem) : dict :=
  (KS "type", VInt 2412) :: groups2412 l ++ legacy2412 "triangle" 41 l ++ legacy2412 "quad" 44 l.

(* ------------------------------------------------------------------ *)
(** ** Lines *)

Definition attrs (e : elem) : list Z := [e_num e; e_desc e; e_phys e; e_mat e; e_color e; e_count e].
Definition beams (e : elem) : list Z := let '(a, b, c) := e_beam e in [a; b; c].
Definition zline (l : list Z) : str := cells_text (map (CI 10) l).
Definition elem_lines (e : elem) : list str :=
  zline (attrs e) :: (if is_beam e then [zline (beams e)] else []) ++ [zline (e_nodes e)].

Lemma zline_ok : forall a l, fits 10 a -> Forall (fits 9) l -> last (a :: l) 0%Z <> (-1)%Z ->
  okline (zline (a :: l)) /\ split (zline (a :: l)) = map dec_Z (a :: l).
Proof.
  intros a l Ha Hl Hn.
  assert (Sp : Forall spaced_cell (map (CI 10) l)).
  { rewrite Forall_map. eapply Forall_impl; [|exact Hl]. intros z Hz. cbn [spaced_cell]. apply fits_lt with (k := 9); [lia|lia|assumption]. }
  assert (W : Forall width_ok (map (CI 10) (a :: l))).
  { constructor; [apply fits_le; [lia|assumption]|]. eapply Forall_impl; [|exact Sp]. exact spaced_width. }
  split.
  - assert (E : exists r z, a :: l = r ++ [z] /\ z <> (-1)%Z).
    { destruct (exists_last (l := a :: l)) as (r & z & E); [discriminate|]. exists r, z. split; [assumption|]. rewrite E, last_last in Hn. assumption. }
    destruct E as (r & z & E & Hz). unfold zline. rewrite E in *. rewrite map_app in *. cbn [map] in *. apply okline_nums.
    + rewrite Forall_forall. intros x Hx. apply in_app_or in Hx as [Hx|[<-|[]]]; [apply in_map_iff in Hx as (y & <- & _)|]; cbn [num_cell]; lia.
    + assumption.
    + cbn [last_ok]. split; [lia|assumption].
  - unfold zline. cbn [map]. rewrite split_cells_first by (assumption || exact Logic.I). cbn [cell_tok map]. rewrite map_map. reflexivity.
Qed.
Lemma fits_9_10 : forall z, fits 9 z -> fits 10 z.
Proof. intros z [H1 H2]. unfold fits in *. cbn in *. lia. Qed.
Lemma zline_ok' : forall l, Forall (fun z => fits 9 z /\ z <> (-1)%Z) l -> okline (zline l) /\ split (zline l) = map dec_Z l.
Proof.
  intros [|a l] H.
  - split; [|reflexivity]. split; [reflexivity|split; [vm_compute; reflexivity|constructor]].
  - inversion H as [|? ? [Ha Hn] Hl]; subst. apply zline_ok.
    + apply fits_9_10. assumption.
    + eapply Forall_impl; [|exact Hl]. intros z [Hz _]. exact Hz.
    + assert (Hin : In (last (a :: l) 0%Z) (a :: l)).
      { destruct (exists_last (l := a :: l)) as (r & z & E); [discriminate|]. rewrite E, last_last. apply in_or_app. right. left. reflexivity. }
      rewrite Forall_forall in H. apply H. assumption.
Qed.
Lemma elem_lines_ok : forall e, wf_elem e -> Forall okline (elem_lines e).
Proof.
  intros e (W1 & W2 & W3 & W4 & W5 & W6). unfold elem_lines. constructor.
  - apply zline_ok; [assumption|assumption|]. exact W3.
  - apply Forall_app. split; [|constructor; [apply zline_ok'; assumption|constructor]].
    destruct (is_beam e); [|constructor]. specialize (W5 eq_refl). unfold beams. destruct (e_beam e) as [[a b] c]. destruct W5 as [W5 W7].
    constructor; [|constructor]. inversion W5; subst. apply zline_ok; [apply fits_9_10; assumption|assumption|exact W7].
Qed.

(** Cells written one by one. *)
Lemma writes_cells : forall vs zs rest t, Forall2 as_int vs zs -> writes rest t ->
  writes (map (fun n => txt "%10i" [Ok n]) vs ++ rest) (zline zs ++ t).
Proof.
  intros vs zs rest t H Hr. induction H as [|v z vs zs Hv _ IH]; [assumption|]. unfold zline. cbn [map app]. rewrite cells_text_cons, <- app_assoc.
  unfold txt at 1. rewrite (pct_cells _ _ [CI 10 z]); [|reflexivity|cbn [cells_args]; split; [exact Hv|exact Logic.I]]. rewrite cells_one.
  constructor. exact IH.
Qed.
Lemma vix_has : forall A (P : pyval -> A -> Prop) d k a, has P d k a -> exists v, vix (VDict d) k = Ok v /\ P v a.
Proof. intros A P d k a H. exact (has_get A P d k a H). Qed.
Lemma elem_writes : forall v e rest t, wf_elem e -> repr_elem v e -> writes rest t -> writes (elem2412 v ++ rest) (unlines (elem_lines e) ++ t).
Proof.
  intros v e rest t (_ & _ & _ & Wb & _) (d & -> & R1 & R2 & R3 & R4 & R5 & R6 & R7 & R8) Hr. unfold elem2412.
  destruct (vix_has _ _ _ _ _ R2) as (fd & E2 & Hfd & Hq). rewrite E2, Hq, <- Wb.
  destruct (vix_has _ _ _ _ _ R7) as (nv & E7 & ns & En & H2). rewrite E7. cbn [rbind]. rewrite En.
  unfold elem_lines. rewrite unlines_cons', unlines_app. cbn [app]. rewrite <- (app_assoc (zline (attrs e) ++ [LF])), <- app_assoc. rewrite <- (app_assoc _ _ t).
  apply (writes_line _ _ (map (CI 10) (attrs e))); [reflexivity| |].
  { cbn [attrs map cells_args app]. rewrite E2. repeat split; auto using has_gi.
    - apply (has_gi d "element_nums"). assumption.
    - apply (has_gi d "phys_table"). assumption.
    - apply (has_gi d "mat_table"). assumption.
    - apply (has_gi d "color"). assumption.
    - apply (has_gi d "num_nodes"). assumption. }
  assert (Tail : writes ((map (fun n => txt "%10i" [Ok n]) ns ++ [txt "\n" []]) ++ rest) (unlines [zline (e_nodes e)] ++ t)).
  { rewrite <- app_assoc. rewrite unlines_one, <- app_assoc. apply writes_cells; [assumption|]. cbn [app].
    apply (writes_line "\n" [] []); [reflexivity|cbn; exact Logic.I|assumption]. }
  destruct (is_beam e) eqn:Eb; [|exact Tail]. specialize (R8 eq_refl). unfold beams. destruct (e_beam e) as [[a b] c]. destruct R8 as (B1 & B2 & B3).
  cbn [app]. rewrite unlines_one. apply (writes_line _ _ (map (CI 10) [a; b; c])); [reflexivity| |exact Tail].
  cbn [map cells_args app]. repeat split.
  - apply (has_gi d "beam_orientation"). assumption.
  - apply (has_gi d "beam_foreend_cross"). assumption.
  - apply (has_gi d "beam_aftend_cross"). assumption.
Qed.
Lemma elems_writes : forall vs es rest t, Forall wf_elem es -> Forall2 repr_elem vs es -> writes rest t ->
  writes (flat_map elem2412 vs ++ rest) (unlines (flat_map elem_lines es) ++ t).
Proof.
  intros vs es rest t W H Hr. induction H as [|v e vs es Hv _ IH]; [assumption|]. inversion W; subst. cbn [flat_map]. rewrite unlines_app, <- !app_assoc.
  apply elem_writes; auto.
Qed.
Definition entry2412 (kv : key * pyval) : list item :=
  match fst kv with
  | KS _ => []
  | KI _ => match to_seq (snd kv) with Ok es => flat_map elem2412 es | Err e => [WTxt (Err e)] end
  end.
Lemma entries_writes : forall d l rest t, wf2412 l -> elems_of d l -> writes rest t ->
  writes (flat_map entry2412 d ++ rest) (unlines (flat_map elem_lines l) ++ t).
Proof.
  induction d as [|[[s|k] v] d IH]; intros l rest t W H Hr; cbn [elems_of] in H.
  - subst. assumption.
  - cbn [flat_map entry2412 fst app]. apply IH; assumption.
  - destruct H as (a & b & -> & (vs & Hv & H2) & Hb). apply Forall_app in W. destruct W as [Wa Wb]. cbn [flat_map]. unfold entry2412 at 1. cbn [fst snd]. rewrite Hv.
    rewrite flat_map_app, unlines_app, <- !app_assoc. apply elems_writes; [assumption|assumption|]. apply IH; assumption.
Qed.

(* ------------------------------------------------------------------ *)
(** ** Reading *)

Definition elem_toks (e : elem) : list (list str) :=
  map dec_Z (attrs e) :: (if is_beam e then [map dec_Z (beams e)] else []) ++ [map dec_Z (e_nodes e)].
Lemma elem_split : forall e, wf_elem e -> map split (elem_lines e) = elem_toks e.
Proof.
  intros e (W1 & W2 & W3 & W4 & W5 & W6). unfold elem_lines, elem_toks. cbn [map]. rewrite map_app. cbn [map].
  destruct (zline_ok' _ W6) as [_ ->]. destruct (zline_ok (e_num e) [e_desc e; e_phys e; e_mat e; e_color e; e_count e]) as [_ S1]; [assumption|assumption|exact W3|].
  unfold attrs. rewrite S1. f_equal. f_equal. destruct (is_beam e); [|reflexivity]. specialize (W5 eq_refl). unfold beams.
  destruct (e_beam e) as [[a b] c]. destruct W5 as [W5 W7]. inversion W5; subst. cbn [map]. f_equal. apply zline_ok; [apply fits_9_10; assumption|assumption|exact W7].
Qed.
Lemma read_elem : forall e r, wf_elem e -> read_elem2412 (map dec_Z (attrs e)) ((if is_beam e then [map dec_Z (beams e)] else []) ++ [map dec_Z (e_nodes e)] ++ r)
  = Ok (elem_out e, e_desc e, r).
Proof.
  intros e r (W1 & W2 & W3 & W4 & W5 & W6). unfold read_elem2412, tok_int, ln, attrs. cbn [map nth_error of_option rbind].
  rewrite !py_int_dec. cbn [rbind]. rewrite beam_rod. unfold elem_out, beams. destruct (is_beam e).
  - destruct (e_beam e) as [[a b] c]. cbn [map app nth_error of_option rbind]. rewrite !py_int_dec. cbn [rbind]. rewrite parse_ints_dec. reflexivity.
  - cbn [app]. rewrite parse_ints_dec. reflexivity.
Qed.

(** Grouping. *)
Lemma firsts_In : forall l x, In x (firsts l) <-> In x l.
Proof.
  induction l as [|a l IH]; intro x; [reflexivity|]. cbn [firsts In]. rewrite filter_In, IH. split.
  - intros [H|[H _]]; auto.
  - intros [H|H]; [auto|]. destruct (Z.eqb_spec x a) as [->|Hn]; [auto|]. right. split; [assumption|]. reflexivity.
Qed.
Lemma firsts_snoc : forall l a, firsts (l ++ [a]) = if existsb (Z.eqb a) l then firsts l else firsts l ++ [a].
Proof.
  induction l as [|b l IH]; intro a; [reflexivity|]. cbn [app firsts existsb]. rewrite IH.
  destruct (Z.eqb_spec a b) as [->|Hn].
  - cbn [orb]. destruct (existsb (Z.eqb b) l); [reflexivity|]. rewrite filter_app. cbn [filter]. rewrite Z.eqb_refl. cbn [negb]. rewrite app_nil_r. reflexivity.
  - cbn [orb]. destruct (existsb (Z.eqb a) l); [reflexivity|]. rewrite filter_app. cbn [filter].
    rewrite (proj2 (Z.eqb_neq a b)) by assumption. reflexivity.
Qed.
Lemma firsts_nodup : forall l, NoDup (firsts l).
Proof.
  induction l as [|a l IH]; cbn [firsts]; constructor.
  - rewrite filter_In. intros [_ H]. rewrite Z.eqb_refl in H. discriminate.
  - apply NoDup_filter. assumption.
Qed.
Lemma dget_groups : forall (g : Z -> pyval) ks k, dget (map (fun k => (KI k, g k)) ks) (KI k) = if existsb (Z.eqb k) ks then Some (g k) else None.
Proof.
  intros g ks k. induction ks as [|b ks IH]; [reflexivity|]. cbn [map dget key_eqb existsb]. destruct (Z.eqb_spec k b) as [->|]; [reflexivity|exact IH].
Qed.
Lemma dput_groups : forall (g h : Z -> pyval) ks k, NoDup ks -> In k ks -> (forall x, x <> k -> g x = h x) ->
  dput (map (fun k => (KI k, g k)) ks) (KI k) (h k) = map (fun k => (KI k, h k)) ks.
Proof.
  intros g h ks k Hn Hin Hg. induction Hn as [|b ks Hb Hn IH]; [contradiction|]. cbn [map dput key_eqb].
  destruct (Z.eqb_spec k b) as [->|Hk].
  - f_equal. apply map_ext_in. intros x Hx. rewrite Hg; [reflexivity|]. intros ->. contradiction.
  - rewrite Hg by auto. f_equal. apply IH. destruct Hin; [congruence|assumption].
Qed.
Lemma existsb_firsts : forall k l, existsb (Z.eqb k) (firsts l) = existsb (Z.eqb k) l.
Proof.
  intros k l. apply eq_true_iff_eq. rewrite !existsb_exists. split; intros (x & Hx & E); exists x; (split; [apply firsts_In; assumption|assumption]).
Qed.
Lemma with_desc_none : forall k l, existsb (Z.eqb k) (map e_desc l) = false -> with_desc k l = [].
Proof.
  intros k l. induction l as [|e l IH]; [reflexivity|]. cbn [map existsb with_desc filter]. intro H. apply orb_false_iff in H as [H1 H2].
  rewrite Z.eqb_sym, H1. apply IH. assumption.
Qed.
Lemma with_desc_some : forall k l, existsb (Z.eqb k) (map e_desc l) = true -> with_desc k l <> [].
Proof.
  intros k l H E. apply existsb_exists in H as (x & Hx & Hk). apply in_map_iff in Hx as (e & <- & He). apply Z.eqb_eq in Hk. subst.
  assert (Hin : In e (with_desc (e_desc e) l)) by (apply filter_In; split; [assumption|apply Z.eqb_refl]). rewrite E in Hin. contradiction.
Qed.
Definition typed (l : list elem) : dict := (KS "type", VInt 2412) :: groups2412 l.
Lemma dget_typed : forall l k, dget (typed l) (KI k) =
  if existsb (Z.eqb k) (map e_desc l) then Some (VList (map (fun e => VDict (elem_out e)) (with_desc k l))) else None.
Proof. intros l k. unfold typed, groups2412. cbn [dget key_eqb]. rewrite (dget_groups (fun k => VList (map (fun e => VDict (elem_out e)) (with_desc k l)))). rewrite existsb_firsts. reflexivity. Qed.
Lemma add_typed : forall l e, add_elem (typed l) (e_desc e) (elem_out e) = typed (l ++ [e]).
Proof.
  intros l e. unfold add_elem. rewrite dget_typed. unfold typed, groups2412. rewrite map_app. cbn [map]. rewrite firsts_snoc.
  destruct (existsb (Z.eqb (e_desc e)) (map e_desc l)) eqn:E.
  - cbn [dput key_eqb]. f_equal.
    set (g := fun k => VList (map (fun e => VDict (elem_out e)) (with_desc k l))).
    set (h := fun k => VList (map (fun e => VDict (elem_out e)) (with_desc k (l ++ [e])))).
    assert (Eh : VList (map (fun e0 => VDict (elem_out e0)) (with_desc (e_desc e) l) ++ [VDict (elem_out e)]) = h (e_desc e)).
    { unfold h, with_desc. rewrite filter_app. cbn [filter]. rewrite Z.eqb_refl. rewrite map_app. reflexivity. }
    rewrite Eh. apply dput_groups.
    + apply firsts_nodup.
    + apply firsts_In. apply existsb_exists in E as (x & Hx & Ex). apply Z.eqb_eq in Ex. subst. assumption.
    + intros x Hx. unfold g, h, with_desc. rewrite filter_app. cbn [filter]. rewrite (proj2 (Z.eqb_neq (e_desc e) x)) by auto. rewrite app_nil_r. reflexivity.
  - rewrite dput_fresh.
    + rewrite map_app. cbn [map app]. f_equal. f_equal.
      * apply map_ext_in. intros k Hk. f_equal. f_equal. f_equal. unfold with_desc. rewrite filter_app. cbn [filter].
        destruct (Z.eqb_spec (e_desc e) k) as [Ek|]; [|rewrite app_nil_r; reflexivity]. exfalso. apply (proj1 (firsts_In _ _)) in Hk. subst k.
        assert (Ht : existsb (Z.eqb (e_desc e)) (map e_desc l) = true) by (apply existsb_exists; exists (e_desc e); split; [assumption|apply Z.eqb_refl]). congruence.
      * f_equal. f_equal. f_equal. unfold with_desc. rewrite filter_app. cbn [filter]. rewrite Z.eqb_refl.
        fold (with_desc (e_desc e) l). rewrite with_desc_none by assumption. reflexivity.
    + fold (groups2412 l). fold (typed l). rewrite dget_typed, E. reflexivity.
Qed.
Lemma loop_ok : forall es l fuel, wf2412 es -> length es <= fuel -> loop2412 fuel (flat_map elem_toks es) (typed l) = Ok (typed (l ++ es)).
Proof.
  induction es as [|e es IH]; intros l fuel H Hf; [rewrite app_nil_r; destruct fuel; reflexivity|].
  inversion H as [|? ? He Hes]; subst. destruct fuel as [|fuel]; [cbn in Hf; lia|]. cbn [flat_map elem_toks app loop2412].
  rewrite <- !app_assoc. cbn [app].
  change ((if is_beam e then [map dec_Z (beams e)] else []) ++ map dec_Z (e_nodes e) :: flat_map elem_toks es)
    with ((if is_beam e then [map dec_Z (beams e)] else []) ++ [map dec_Z (e_nodes e)] ++ flat_map elem_toks es).
  rewrite read_elem by assumption. cbn [rbind]. rewrite add_typed. rewrite IH by (assumption || (cbn in Hf; lia)).
  rewrite <- app_assoc. reflexivity.
Qed.

Lemma column_ok : forall es k g, (forall e, dget (elem_out e) (KS k) = Some (g e)) -> DsGroups.column (map (fun e => VDict (elem_out e)) es) k = Ok (VList (map g es)).
Proof.
  intros es k g H. unfold DsGroups.column, rmap. rewrite map_map. rewrite (rseq_map_ok _ _ _ g); [reflexivity|].
  intros e _. cbn [vix]. unfold ix. rewrite H. reflexivity.
Qed.
Lemma elem_out_nodes : forall e, dget (elem_out e) (KS "nodes_nums") = Some (VList (map VInt (e_nodes e))).
Proof. intro e. unfold elem_out. destruct (is_beam e), (e_beam e) as [[a b] c]; reflexivity. Qed.
Lemma legacy_ok : forall l extra k name, dget extra (KI k) = None -> dget (typed l ++ extra) (KS name) = None ->
  legacy (typed l ++ extra) k name = Ok (typed l ++ extra ++ legacy2412 name k l).
Proof.
  intros l extra k name He Hn. unfold legacy. rewrite dget_app, dget_typed. unfold legacy2412.
  destruct (existsb (Z.eqb k) (map e_desc l)) eqn:E.
  - cbn [to_seq rbind]. cbn [map rseq].
    rewrite (column_ok _ "element_nums" (fun e => VInt (e_num e))), (column_ok _ "fe_descriptor" (fun e => VInt (e_desc e))),
      (column_ok _ "phys_table" (fun e => VInt (e_phys e))), (column_ok _ "mat_table" (fun e => VInt (e_mat e))),
      (column_ok _ "color" (fun e => VInt (e_color e))), (column_ok _ "num_nodes" (fun e => VInt (e_count e))),
      (column_ok _ "nodes_nums" (fun e => VList (map VInt (e_nodes e)))) by (intro; first [reflexivity|apply elem_out_nodes]).
    cbn [rbind]. assert (Hne := with_desc_some _ _ E). fold (columns2412 (with_desc k l)).
    destruct (with_desc k l) as [|e0 es0] eqn:Ew; [congruence|]. rewrite dput_fresh by assumption. rewrite <- app_assoc. reflexivity.
  - rewrite He. rewrite with_desc_none by assumption. rewrite app_nil_r. reflexivity.
Qed.

Lemma dget_typed_name : forall l s, s <> "type"%string -> dget (typed l) (KS s) = None.
Proof.
  intros l s H. unfold typed, groups2412. cbn [dget key_eqb]. rewrite (proj2 (String.eqb_neq _ _)) by assumption.
  induction (firsts (map e_desc l)) as [|k ks IH]; [reflexivity|]. cbn [map dget key_eqb]. exact IH.
Qed.

Lemma set2412 : forall c m fd ho d l, repr2412 d l -> wf2412 l ->
  text_set c m fd ho d 2412 (type_hdr 2412) (flat_map elem_lines l) (read2412 l).
Proof.
  intros c m fd ho d l (Hty & Hdat & R) Hw. destruct (type_hdr_ok 2412 ltac:(lia)) as [Ht Hh].
  assert (Hok : Forall okline (type_hdr 2412 :: flat_map elem_lines l)).
  { constructor; [assumption|]. apply Forall_fm. eapply Forall_impl; [|exact Hw]. exact elem_lines_ok. }
  constructor; [|assumption|assumption|].
  - rewrite (set_items_text c m fd d (VInt 2412) Hty Hdat). change (write_dispatch c m fd (VInt 2412) d) with (write2412 d). unfold write2412.
    cbn [wp_items]. rewrite hdr_writes. rewrite !unlines_cons'. eapply writes_eq.
    { apply writes_consr; [reflexivity|]. apply (entries_writes d l); [assumption|assumption|exact end_writes]. }
    unfold type_hdr. rewrite <- !app_assoc. reflexivity.
  - intros block _ Hb. unfold extract_set. rewrite Hb. cbn [Z.eqb Pos.eqb]. unfold extract2412.
    rewrite split_text by assumption. cbv beta iota zeta. cbn [map skipn].
    assert (Es : map split (flat_map elem_lines l) = flat_map elem_toks l).
    { rewrite !flat_map_concat_map, concat_map, map_map. f_equal. apply map_ext_in. intros e He. apply elem_split.
      unfold wf2412 in Hw. rewrite Forall_forall in Hw. auto. }
    match goal with |- context [map split ?x] => change (map split x) with (map split (flat_map elem_lines l)) end. rewrite Es.
    assert (Hlen : length l <= length (flat_map elem_toks l)).
    { clear. induction l as [|e l IH]; [cbn; lia|]. cbn [flat_map length]. rewrite app_length. unfold elem_toks at 1. cbn [length]. lia. }
    change [(KS "type", VInt 2412)] with (typed []). rewrite loop_ok by assumption. cbn [app rbind].
    assert (L1 := legacy_ok l [] 41 "triangle" eq_refl). rewrite !app_nil_r in L1. cbn [app] in L1.
    rewrite L1 by (apply dget_typed_name; discriminate). cbn [rbind].
    rewrite legacy_ok.
    + cbn [try_any]. unfold read2412, typed. rewrite <- app_comm_cons. reflexivity.
    + unfold legacy2412. destruct (with_desc 41 l); reflexivity.
    + rewrite dget_app, dget_typed_name by discriminate. unfold legacy2412. destruct (with_desc 41 l); reflexivity.
Qed.
