(** Writing what was read: the same bytes. *)
From Verif Require Import PyBase PyNum PyVal Utf8 Tools DsNodes DsHeaders DsGroups Ds55 Ds58 Ds2414 Uff Facts IntFacts FloatFacts DecFacts FloatText FloatExact
  CplxFacts DictFacts Scan Container Append ContainerThms Utf8Facts Lines Stored Cells Rows RtNodes RtCs RtHeads RtElems RtGroups RtNodal RtFun RtFunSet RtAnalysis SubFacts PropReread.
From Coq Require Import Lia.
Open Scope nat_scope.
Open Scope list_scope.

(** A text without surrounding blanks that fits its field. *)
Definition trim (w : nat) (s : str) : Prop := strip s = s /\ length s <= w.
Lemma trim_read : forall w s, trim w s -> strip (firstn w s) = s.
Proof. intros w s [H1 H2]. rewrite firstn_short by assumption. assumption. Qed.
(** A double that is not subnormal. *)
Definition normalf (f : float) : Prop := f_valid f = true /\ f_normal f = true.

Lemma Forall2_maps : forall A B C (P : B -> C -> Prop) (f : A -> B) (g : A -> C) l, (forall a, In a l -> P (f a) (g a)) -> Forall2 P (map f l) (map g l).
Proof. intros A B C P f g l H. apply Forall2_same. rewrite Forall_forall. exact H. Qed.
Lemma seq_list : forall A B (P : pyval -> B -> Prop) (f : A -> pyval) (g : A -> B) l, (forall a, In a l -> P (f a) (g a)) ->
  seq_of P (VList (map f l)) (map g l).
Proof. intros A B P f g l H. exists (map f l). split; [reflexivity|]. apply Forall2_maps. exact H. Qed.
Lemma seq_arr : forall A B (P : pyval -> B -> Prop) dt (f : A -> pyval) (g : A -> B) l, (forall a, In a l -> P (f a) (g a)) ->
  seq_of P (VArr dt (map f l)) (map g l).
Proof. intros A B P dt f g l H. exists (map f l). split; [reflexivity|]. apply Forall2_maps. exact H. Qed.
Lemma seq_arr2 : forall A B (P : pyval -> B -> Prop) dt (f : A -> list pyval) (g : A -> B) l, (forall a, In a l -> P (VArr dt (f a)) (g a)) ->
  seq_of P (VArr2 dt (map f l)) (map g l).
Proof. intros A B P dt f g l H. exists (map (VArr dt) (map f l)). split; [reflexivity|]. rewrite map_map. apply Forall2_maps. exact H. Qed.
(** [e] is written as [d] was, whenever and in whatever mode. *)
Definition recopies (c : clock) (m : wmode) (fd : bool) (d e : dict) : Prop := forall c' m' fd', exists new, forall start,
  run_items start (set_items c m fd d) = (start ++ new, None) /\ run_items start (set_items c' m' fd' e) = (start ++ new, None).
Lemma text_set_again : forall c m fd ho c' m' fd' ho' d e ty ty' l0 ls out out',
  text_set c m fd ho d ty l0 ls out -> text_set c' m' fd' ho' e ty' l0 ls out' ->
  exists new, forall start, run_items start (set_items c m fd d) = (start ++ new, None) /\ run_items start (set_items c' m' fd' e) = (start ++ new, None).
Proof.
  intros c m fd ho c' m' fd' ho' d e ty ty' l0 ls out out' H1 H2.
  apply text_set_block in H1 as (b & (_ & S1) & _ & _ & O1 & C1 & E1).
  apply text_set_block in H2 as (b' & (_ & S2) & _ & _ & O2 & C2 & E2).
  exists (block_bytes b). intro start. split; [apply S1|]. rewrite S2. unfold block_bytes. rewrite O1, C1, O2, C2. rewrite E1 in E2. injection E2 as ->. reflexivity.
Qed.
(** An entry of a dictionary written out. *)
Ltac entry := eexists; split; [reflexivity|].
Ltac entries' := lazymatch goal with
  | |- _ /\ _ => split; [entries'|entries']
  | |- has_or _ _ _ _ _ => left; entry
  | |- has _ _ _ _ => entry
  | |- _ => reflexivity
  end.
Tactic Notation "entries" tactic(tac) := entries'; tac.

(* ------------------------------------------------------------------ *)
(** ** 15, 2411, 82 *)

Definition round_node (cv : float -> float) (n : node) : node :=
  {| n_num := n_num n; n_def := n_def n; n_disp := n_disp n; n_color := n_color n; n_x := cv (n_x n); n_y := cv (n_y n); n_z := cv (n_z n) |}.
Definition tidy15 (l : list node) : Prop := Forall (fun n => normalf (n_x n) /\ normalf (n_y n) /\ normalf (n_z n)) l.
Lemma rd5_text : forall u f, normalf f -> fmt_e u 5 (rd 5 f) = fmt_e u 5 f.
Proof. intros u f [V N]. apply rd_stable; [exact short5|assumption|assumption]. Qed.
Lemma rd5_valid : forall f, f_valid f = true -> f_valid (rd 5 f) = true.
Proof. intros f V. apply rd_valid; [exact short5|assumption]. Qed.
Definition valid15 (l : list node) : Prop := Forall (fun n => f_valid (n_x n) = true /\ f_valid (n_y n) = true /\ f_valid (n_z n) = true) l.
Lemma tidy_valid15 : forall l, tidy15 l -> valid15 l.
Proof. intros l H. eapply Forall_impl; [|exact H]. intros n ((A & _) & (B & _) & C & _). split; [exact A|]. split; [exact B|exact C]. Qed.
Lemma again15 : forall l, repr15 (read15 l) (map (round_node (rd 5)) l).
Proof.
  intro l. unfold repr15, node_dict. rewrite !map_map. split; [|]; entries (unfold vlist_f; rewrite map_map; apply seq_list; intros n Hn; first [apply as_num_VFloat|reflexivity]).
Qed.
Lemma wf_round15 : forall l, wf15 l -> valid15 l -> wf15 (map (round_node (rd 5)) l).
Proof.
  intros l W V. unfold wf15, valid15 in *. rewrite Forall_map. rewrite Forall_forall in *. intros n Hn.
  destruct (W n Hn) as (W1 & W2 & W3 & W4 & W5 & W6 & W7). destruct (V n Hn) as (T1 & T2 & T3). cbn.
  repeat (split; [first [assumption|apply narrow_again; assumption]|]). apply narrow_again; assumption.
Qed.
Lemma same15 : forall c m fd d l, repr15 d l -> wf15 l -> tidy15 l -> recopies c m fd d (read15 l).
Proof.
  intros c m fd d l R W T. set (l' := map (round_node (rd 5)) l). assert (R' := again15 l). assert (W' := wf_round15 l W (tidy_valid15 l T)). fold l' in R', W'.
  intros c' m' fd'; eapply text_set_again; [exact (set15 c m fd false d l R W)|].
  assert (E : map line15 l = map line15 l').
  { unfold l'. rewrite map_map. apply map_ext_in. intros n Hn. unfold tidy15 in T. rewrite Forall_forall in T. destruct (T n Hn) as (T1 & T2 & T3).
    unfold line15. cbn [round_node n_num n_def n_disp n_color n_x n_y n_z map]. rewrite !rd5_text by assumption. reflexivity. }
  rewrite E. exact (set15 c' m' fd' false _ l' R' W').
Qed.

Lemma as_intc_VFloat : forall z, (Z.abs z < 2 ^ 53)%Z -> as_intc (VFloat (float_of_Z z)) z.
Proof. intros z H. unfold as_intc. cbn [to_int]. apply py_int_of_float_exact. assumption. Qed.
Ltac small := match goal with H : fits ?k ?z |- (Z.abs ?z < _)%Z => apply (fits_53 k); [lia|exact H] end.

Lemma same2411 : forall c m fd d l, repr2411 d l -> wf2411 l -> recopies c m fd d (read2411 l).
Proof.
  intros c m fd d l R W.
  assert (R' : repr2411 (read2411 l) l).
  { unfold wf2411 in W. rewrite Forall_forall in W.
    unfold repr2411, node_dict. split; [|]; entries (unfold vfloats; rewrite map_map; apply seq_arr; intros n Hn;
      destruct (W n Hn) as (W1 & W2 & W3 & W4 & _); first [apply as_intc_VFloat; small|apply as_int_VFloat; small|reflexivity]). }
  intros c' m' fd'; eapply text_set_again; [exact (set2411 c m fd false d l R W)|exact (set2411 c' m' fd' false _ l R' W)].
Qed.

(** Neighbouring numbers differ. *)
Fixpoint apart (l : list Z) : Prop :=
  match l with a :: (b :: _) as r => a <> b /\ apart r | _ => True end.
Definition tidy82 (t : trace) : Prop := trim 80 (t_id t) /\ apart (t_nodes t).
Lemma apart_steps : forall l, Forall (fits 9) l -> apart l -> steps (map VFloat (map float_of_Z l)).
Proof.
  induction l as [|a l IH]; intros F H; [exact Logic.I|]. destruct l as [|b l]; [exact Logic.I|]. destruct H as [Hn H].
  inversion F as [|? ? Fa F']; subst. inversion F' as [|? ? Fb _]; subst.
  cbn [map steps]. split; [|apply IH; assumption]. unfold differ. rewrite Bool.negb_true_iff.
  apply sub_int_neq; [small|small|congruence].
Qed.
Lemma same82 : forall c m fd d t, repr82 d t -> wf82 t -> tidy82 t -> recopies c m fd d (read82 t).
Proof.
  intros c m fd d t R W [T1 T2]. assert (R' : repr82 (read82 t) t).
  { destruct W as (_ & _ & _ & _ & _ & _ & W). assert (F : Forall (fits 9) (t_nodes t)) by (eapply Forall_impl; [|exact W]; intros z [H _]; exact H).
    unfold repr82. split; [reflexivity|]. split; [reflexivity|]. split; [entry; reflexivity|]. split; [left; entry; reflexivity|].
    split; [left; entry; unfold as_txt; cbn [to_str]; rewrite trim_read by assumption; reflexivity|].
    exists DFloat, (map VFloat (map float_of_Z (t_nodes t))). split; [reflexivity|]. split; [right; reflexivity|]. split; [|apply apart_steps; assumption].
    rewrite map_map. rewrite <- (map_id (t_nodes t)) at 2. apply Forall2_maps. intros z Hz. rewrite Forall_forall in F. specialize (F z Hz).
    apply as_int_VFloat. small. }
  intros c' m' fd'; eapply text_set_again; [exact (set82 c m fd false d t R W)|exact (set82 c' m' fd' false _ t R' W)].
Qed.

(* ------------------------------------------------------------------ *)
(** ** 18, 2420 *)

Definition round_pt (p : point) : point := let '(x, y, z) := p in (rd 5 x, rd 5 y, rd 5 z).
Definition round_cs (c : cs18) : cs18 :=
  {| c_num := c_num c; c_type := c_type c; c_ref := c_ref c; c_color := c_color c; c_method := c_method c; c_name := c_name c;
     c_o := round_pt (c_o c); c_x := round_pt (c_x c); c_xz := round_pt (c_xz c) |}.
Definition tidy_pt (p : point) : Prop := Forall normalf (pt_list p).
Definition tidy18 (l : list cs18) : Prop := Forall (fun c => strip (c_name c) = c_name c /\ tidy_pt (c_o c) /\ tidy_pt (c_x c) /\ tidy_pt (c_xz c)) l.
Lemma round_pt_list : forall p, pt_list (round_pt p) = map (rd 5) (pt_list p).
Proof. intros [[x y] z]. reflexivity. Qed.
Lemma round_ptv : forall p, ptv p -> ptv (round_pt p).
Proof.
  intros p H. unfold ptv in *. rewrite round_pt_list, Forall_map. eapply Forall_impl; [|exact H]. intros f V. apply rd5_valid. exact V.
Qed.
Lemma cells_rd : forall w l, Forall normalf l -> map cell_text (map (CE w 5) (map (rd 5) l)) = map cell_text (map (CE w 5) l).
Proof.
  intros w l H. induction H as [|f l Hf _ IH]; [reflexivity|]. cbn [map]. f_equal; [|exact IH]. unfold cell_text. rewrite rd5_text by assumption. reflexivity.
Qed.

Lemma again18 : forall l, wf18 l -> Forall (fun c => strip (c_name c) = c_name c) l -> repr18 (read18 l) (map round_cs l).
Proof.
  intros l W0 T. unfold wf18 in W0. rewrite Forall_forall in W0, T.
  assert (P : forall p, as_pt (VArr DFloat (map (fun f => VFloat (rd 5 f)) (pt_list p))) (round_pt p)).
  { intro p. unfold as_pt. rewrite round_pt_list. apply seq_arr. reflexivity. }
  unfold repr18. rewrite !map_map. entries idtac.
    all: try (unfold vfloats; rewrite map_map; apply seq_arr; intros n Hn; destruct (W0 n Hn) as (F & _); unfold ints18 in F;
      repeat match goal with H : Forall (fits 9) (_ :: _) |- _ => inversion H; clear H; subst end; apply as_intc_VFloat; small).
    - apply seq_list. intros n Hn. cbn [round_cs c_name]. unfold as_txt. cbn [to_str]. f_equal. exact (T n Hn).
    - unfold rd_pts. rewrite map_map. apply seq_arr2. intros n Hn. apply P.
    - unfold rd_pts. rewrite map_map. apply seq_arr2. intros n Hn. apply P.
    - unfold rd_pts. rewrite map_map. apply seq_arr2. intros n Hn. apply P.
Qed.
Lemma wf_round18 : forall l, wf18 l -> wf18 (map round_cs l).
Proof.
  intros l W0. unfold wf18 in *. rewrite Forall_map. rewrite Forall_forall in *. intros n Hn. destruct (W0 n Hn) as (W1 & W2 & W3 & W4 & W5 & W6). cbn.
  repeat (split; [first [assumption|apply round_ptv; assumption]|]). apply round_ptv; assumption.
Qed.
Lemma same18 : forall c m fd d l, repr18 d l -> wf18 l -> tidy18 l -> recopies c m fd d (read18 l).
Proof.
  intros c m fd d l R W T. set (l' := map round_cs l). assert (W' := wf_round18 l W). fold l' in W'.
  assert (R' : repr18 (read18 l) l') by (apply again18; [exact W|]; eapply Forall_impl; [|exact T]; intros n Hn; apply Hn).
  unfold tidy18 in T. rewrite Forall_forall in T.
  intros c' m' fd'; eapply text_set_again; [exact (set18 c m fd false d l R W)|].
  assert (E : flat_map lines18 l = flat_map lines18 l').
  { unfold l'. rewrite !flat_map_concat_map, map_map. f_equal. apply map_ext_in. intros n Hn.
    destruct (T n Hn) as (_ & T1 & T2 & T3). unfold tidy_pt in *. unfold lines18.
    cbn [round_cs c_name c_o c_x c_xz]. rewrite !round_pt_list, <- map_app. unfold cells_text.
    rewrite !cells_rd by (try (apply Forall_app; split); assumption). reflexivity. }
  rewrite E. exact (set18 c' m' fd' false _ l' R' W').
Qed.

Definition tidy2420 (p : part) : Prop := rstrip (RtCs.p_name p) = RtCs.p_name p /\ Forall (fun s => rstrip (s_name s) = s_name s) (p_cs p).
Lemma same2420 : forall c m fd d p, repr2420 d p -> wf2420 p -> tidy2420 p -> recopies c m fd d (read2420 p).
Proof.
  intros c m fd d p R W [T1 T2]. rewrite Forall_forall in T2.
  assert (R' : repr2420 (read2420 p) p).
  { unfold repr2420. entries idtac.
    all: try reflexivity.
    all: try (apply seq_list; intros s Hs; reflexivity).
    - unfold as_txt. cbn [to_str]. f_equal. exact T1.
    - apply seq_list. intros s Hs. unfold as_txt. cbn [to_str]. f_equal. apply T2. exact Hs.
    - apply seq_list. intros s Hs. unfold as_mat, read_mat. do 2 eexists. split; [reflexivity|].
      rewrite <- (map_id (mat_rows (s_mat s))) at 2. apply Forall2_maps. intros r _. rewrite <- (map_id r) at 2. apply Forall2_maps. reflexivity. }
  intros c' m' fd'; eapply text_set_again; [exact (set2420 c m fd false d p R W)|exact (set2420 c' m' fd' false _ p R' W)].
Qed.

(* ------------------------------------------------------------------ *)
(** ** 151, 164, 1858, 2400 *)

Ltac text_entry := unfold as_txt; cbn [to_str]; f_equal; first [apply trim_read; assumption|apply (proj1 (conj _ _)); assumption|assumption].
Definition tidy151 (h : head151) : Prop :=
  Forall (trim 80) [a_model h; a_desc h; a_app h; a_prog h] /\
  Forall (fun s => strip s = s) [a_date1 h; a_time1 h; a_date2 h; a_time2 h; a_date3 h; a_time3 h].
Ltac open_list H := match type of H with Forall _ (_ :: _) => let H1 := fresh H in let H2 := fresh H in
  inversion H as [|? ? H1 H2]; clear H; subst; open_list H2 | _ => clear H end.
Lemma same151 : forall c m fd d h, repr151 c d h -> wf151 h -> tidy151 h -> recopies c m fd d (read151 h).
Proof.
  intros c m fd d h R W [T1 T2].
  assert (R' : forall c', repr151 c' (read151 h) h).
  { intro c'. open_list T1. open_list T2. unfold repr151. entries (unfold as_txt; cbn [to_str]; first [reflexivity|f_equal; first [assumption|apply trim_read; assumption]]). }
  intros c' m' fd'; eapply text_set_again; [exact (set151 c m fd false d h R W)|exact (set151 c' m' fd' false _ h (R' c') W)].
Qed.

Definition tidy164 (u : units) : Prop := strip (u_desc u) = u_desc u.
Lemma same164 : forall c m fd d u, repr164 d u -> wf164 u -> tidy164 u -> recopies c m fd d (read164 u).
Proof.
  intros c m fd d u R W T. unfold tidy164 in T.
  assert (R' : repr164 (read164 u) u).
  { unfold repr164. entries (first [reflexivity|unfold as_txt; cbn [to_str]; f_equal; assumption]). }
  intros c' m' fd'; eapply text_set_again; [exact (set164 c m fd false d u R W)|exact (set164 c' m' fd' false _ u R' W)].
Qed.

Definition tidy2400 (h : mhead) : Prop := trim 80 (k_name h) /\ trim 80 (k_part h) /\ strip (k_date h) = k_date h /\ strip (k_time h) = k_time h.
Lemma same2400 : forall c m fd d h, repr2400 d h -> wf2400 h -> tidy2400 h -> recopies c m fd d (read2400 h).
Proof.
  intros c m fd d h R W (T1 & T2 & T3 & T4).
  assert (R' : repr2400 (read2400 h) h).
  { unfold repr2400. entries (first [reflexivity|unfold as_txt; cbn [to_str]; f_equal; first [assumption|apply trim_read; assumption]|idtac]).
    rewrite <- (map_id (k_mask h)) at 2. apply seq_list. reflexivity. }
  intros c' m' fd'; eapply text_set_again; [exact (set2400 c m fd false d h R W)|exact (set2400 c' m' fd' false _ h R' W)].
Qed.

Definition round_qual (q : qual) : qual :=
  {| RtHeads.q_rec := RtHeads.q_rec q; RtHeads.q_oct := RtHeads.q_oct q; RtHeads.q_run := RtHeads.q_run q; RtHeads.q_ints := RtHeads.q_ints q; RtHeads.q_z := map (rd 7) (RtHeads.q_z q); RtHeads.q_user := map (rd 7) (RtHeads.q_user q);
     RtHeads.q_resp := RtHeads.q_resp q; RtHeads.q_ref := RtHeads.q_ref q |}.
Definition tidy1858 (q : qual) : Prop := Forall normalf (RtHeads.q_z q) /\ Forall normalf (RtHeads.q_user q) /\ strip (RtHeads.q_resp q) = RtHeads.q_resp q /\ strip (RtHeads.q_ref q) = RtHeads.q_ref q.
Lemma flts_rd : forall l, Forall normalf l -> flts (map (rd 7) l) = flts l.
Proof.
  intros l H. unfold flts, cells_text. f_equal. induction H as [|f l [V N] _ IH]; [reflexivity|]. cbn [map]. f_equal; [|exact IH].
  unfold cell_text. rewrite rd_stable; [reflexivity|exact short7|assumption|assumption].
Qed.
Lemma rd7_valid : forall l, Forall (fun f => f_valid f = true) l -> Forall (fun f => f_valid f = true) (map (rd 7) l).
Proof. intros l H. rewrite Forall_map. eapply Forall_impl; [|exact H]. intros f V. apply rd_valid; [exact short7|exact V]. Qed.
Lemma again1858 : forall d q, repr1858 d q -> strip (RtHeads.q_resp q) = RtHeads.q_resp q -> strip (RtHeads.q_ref q) = RtHeads.q_ref q -> repr1858 (read1858 q) (round_qual q).
Proof.
  intros d q R T3 T4. set (q' := round_qual q).
    destruct R as (_ & _ & _ & _ & _ & Li & Lz & Lu & _). apply Forall2_len in Li. apply Forall2_len in Lz. apply Forall2_len in Lu.
    unfold q'. destruct q as [a1 a2 a3 li lz lu a4 a5]. cbn [round_qual RtHeads.q_rec RtHeads.q_oct RtHeads.q_run RtHeads.q_ints RtHeads.q_z RtHeads.q_user RtHeads.q_resp RtHeads.q_ref] in *.
    change (length keys1858) with 9 in Li. change (length zs1858) with 4 in Lz. change (length us1858) with 5 in Lu.
    do 9 (destruct li as [|? li]; [discriminate|]). destruct li; [|discriminate].
    do 4 (destruct lz as [|? lz]; [discriminate|]). destruct lz; [|discriminate].
    do 5 (destruct lu as [|? lu]; [discriminate|]). destruct lu; [|discriminate].
    unfold repr1858. cbn [round_qual RtHeads.q_rec RtHeads.q_oct RtHeads.q_run RtHeads.q_ints RtHeads.q_z RtHeads.q_user RtHeads.q_resp RtHeads.q_ref map keys1858 zs1858 us1858].
    repeat match goal with
    | |- _ /\ _ => split
    | |- Forall2 _ _ _ => constructor
    | |- has as_txt _ _ _ => entry; unfold as_txt; cbn [to_str]; f_equal; assumption
    | |- has _ _ _ _ => entry; reflexivity
    | |- _ => reflexivity
    end.
Qed.
Lemma wf_round1858 : forall q, wf1858 q -> wf1858 (round_qual q).
Proof.
  intros q W. destruct W as (W1 & W2 & W3 & W4 & W5 & W6 & W7 & W8 & W9). unfold wf1858. cbn.
  repeat (split; [first [assumption|apply rd7_valid; assumption]|]). assumption.
Qed.
Lemma same1858 : forall c m fd d q, repr1858 d q -> wf1858 q -> tidy1858 q -> recopies c m fd d (read1858 q).
Proof.
  intros c m fd d q R W (T1 & T2 & T3 & T4). set (q' := round_qual q). assert (R' := again1858 d q R T3 T4). assert (W' := wf_round1858 q W). fold q' in R', W'.
  intros c' m' fd'; eapply text_set_again; [exact (set1858 c m fd false d q R W)|].
  assert (E : lines1858 q = lines1858 q').
  { unfold lines1858, q'. cbn [round_qual RtHeads.q_rec RtHeads.q_oct RtHeads.q_run RtHeads.q_ints RtHeads.q_z RtHeads.q_user RtHeads.q_resp RtHeads.q_ref].
    rewrite flts_rd by assumption. replace (map (rd 7) (RtHeads.q_z q) ++ [f_zero]) with (map (rd 7) (RtHeads.q_z q ++ [f_zero])).
    - rewrite flts_rd; [reflexivity|]. apply Forall_app. split; [assumption|]. constructor; [split; reflexivity|constructor].
    - rewrite map_app. f_equal. }
  rewrite E. exact (set1858 c' m' fd' false _ q' R' W').
Qed.

(* ------------------------------------------------------------------ *)
(** ** 2467, 2412 *)

Definition tidy2467 (l : list (group * list ent4)) : Prop := Forall (fun g => trim 40 (p_name (fst g))) l.
Lemma same2467 : forall c m fd d l, repr2467 d l -> wf2467 l -> tidy2467 l -> recopies c m fd d (read2467 l).
Proof.
  intros c m fd d l R W T. unfold tidy2467 in T. rewrite Forall_forall in T.
  assert (R' : repr2467 (read2467 l) l).
  { unfold repr2467. entries idtac. rewrite <- (map_id l) at 2. apply seq_list. intros [[num sets name] es] Hg.
    assert (Hw := W). unfold wf2467 in Hw. rewrite Forall_forall in Hw. destruct (Hw _ Hg) as ((_ & _ & H6 & _) & _).
    specialize (T _ Hg). cbn [fst snd p_num p_sets p_name] in *.
    do 6 (destruct sets as [|? sets]; [discriminate|]). destruct sets; [|discriminate].
    unfold repr_group. eexists. split; [reflexivity|]. cbn [fst snd p_num p_sets p_name].
    split; [entry; reflexivity|]. split; [unfold sets_of, group_keys; repeat (constructor; [entry; reflexivity|]); constructor|].
    split; [entry; unfold as_txt; cbn [to_str]; f_equal; apply trim_read; exact T|].
    repeat split; entry; unfold vints; rewrite map_map; apply seq_arr; reflexivity. }
  intros c' m' fd'; eapply text_set_again; [exact (set2467 c m fd false d l R W)|exact (set2467 c' m' fd' false _ l R' W)].
Qed.

(** The elements by descriptor, descriptors in the order of their first use. *)
Definition regroup (l : list elem) : list elem := flat_map (fun k => with_desc k l) (firsts (map e_desc l)).
Definition tidy2412 (l : list elem) : Prop := regroup l = l.
Lemma elem_again : forall e, repr_elem (VDict (elem_out e)) e.
Proof.
  intros [num desc phys mat color count [[a b] c] nodes]. eexists. split; [reflexivity|]. unfold elem_out, is_beam.
  cbn [e_num e_desc e_phys e_mat e_color e_count e_beam e_nodes].
  assert (S : seq_of as_int (VList (map VInt nodes)) nodes) by (rewrite <- (map_id nodes) at 2; apply seq_list; reflexivity).
  destruct (existsb (Z.eqb desc) [11; 21; 22; 23; 24]%Z).
  - split; [entry; reflexivity|]. split; [entry; split; [reflexivity|]; reflexivity|].
    do 4 (split; [entry; reflexivity|]). split; [entry; exact S|]. intros _. repeat split; entry; reflexivity.
  - split; [entry; reflexivity|]. split; [entry; split; [reflexivity|]; reflexivity|].
    do 4 (split; [entry; reflexivity|]). split; [entry; exact S|]. discriminate.
Qed.
Lemma elems_app : forall d e l k, elems_of d l -> elems_of e k -> elems_of (d ++ e) (l ++ k).
Proof.
  induction d as [|[[s|z] v] d IH]; intros e l k H1 H2; cbn [elems_of app] in *.
  - subst. exact H2.
  - apply IH; assumption.
  - destruct H1 as (a & b & -> & Hs & Hb). exists a, (b ++ k). rewrite app_assoc. auto.
Qed.
Lemma again2412 : forall l, repr2412 (read2412 l) (regroup l).
Proof.
  intro l. split; [reflexivity|].
  assert (G : forall ks, dget (map (fun k => (KI k, VList (map (fun e => VDict (elem_out e)) (with_desc k l)))) ks) (KS "data") = None).
  { induction ks as [|k ks IH]; [reflexivity|]. exact IH. }
  assert (D : dget (read2412 l) (KS "data") = None).
  { unfold read2412. rewrite app_comm_cons, dget_app. unfold groups2412. cbn [dget]. change (key_eqb (KS "type") (KS "data")) with false. cbv iota.
    rewrite G. unfold legacy2412. destruct (with_desc 41 l), (with_desc 44 l); reflexivity. }
  split; [exact D|]. unfold read2412. cbn [elems_of]. rewrite <- (app_nil_r (regroup l)). apply elems_app.
  - unfold groups2412, regroup. generalize (firsts (map e_desc l)) as ks. induction ks as [|k ks IH]; [reflexivity|].
    cbn [map elems_of flat_map]. exists (with_desc k l), (flat_map (fun k => with_desc k l) ks). split; [reflexivity|]. split; [|exact IH].
    rewrite <- (map_id (with_desc k l)) at 2. apply seq_list. intros e _. apply elem_again.
  - unfold legacy2412. destruct (with_desc 41 l), (with_desc 44 l); reflexivity.
Qed.
Lemma same2412 : forall c m fd d l, repr2412 d l -> wf2412 l -> tidy2412 l -> recopies c m fd d (read2412 l).
Proof.
  intros c m fd d l R W T. assert (R' := again2412 l). rewrite T in R'.
  intros c' m' fd'; eapply text_set_again; [exact (set2412 c m fd false d l R W)|exact (set2412 c' m' fd' false _ l R' W)].
Qed.

(* ------------------------------------------------------------------ *)
(** ** 55 *)

(** Not a negative zero, which [a + 1.j * b] does not keep. *)
Definition plus0 (f : float) : Prop := normalf f /\ f <> SpecFloat.S754_zero true.
Lemma rd_plus0 : forall p f, short p -> plus0 f -> rd p f <> SpecFloat.S754_zero true.
Proof.
  intros p [s|s| |s m e] Hp [[V N] H]; try discriminate; [exact H|]. apply valid_canon in V. cbn [f_normal] in N. apply Z.leb_le in N.
  destruct (rd_facts p s m e Hp V) as (_ & _ & _ & G). destruct (G N) as (_ & _ & m' & e' & -> & _). discriminate.
Qed.
Lemma parts_plus0 : forall a b, a <> SpecFloat.S754_zero true -> b <> SpecFloat.S754_zero true -> re_part a b = a /\ im_part b = b.
Proof.
  intros a b Ha Hb. split; [destruct a as [[]| | |]|destruct b as [[]| | |]]; try reflexivity; congruence.
Qed.
(** The same with subnormal numbers. *)
Definition loose (f : float) : Prop := f_valid f = true /\ f <> SpecFloat.S754_zero true.
Lemma plus0_loose : forall l, Forall plus0 l -> Forall loose l.
Proof. intros l H. eapply Forall_impl; [|exact H]. intros f [[V _] Z]. split; assumption. Qed.
Lemma rd_loose : forall p f, (1 <= p)%nat -> short p -> loose f -> rd p f <> SpecFloat.S754_zero true.
Proof.
  intros p [s|s| |s m e] Hp Sp [V H]; try discriminate; [exact H|]. apply valid_canon in V.
  destruct (rd_nonzero p s m e Hp Sp V) as (m' & e' & ->). discriminate.
Qed.
Lemma r6c_loose : forall a b, loose a -> loose b -> r6c (a, b) = VCplx (rd 5 a) (rd 5 b).
Proof.
  intros a b Ha Hb. unfold r6c, r6f. cbn [fst snd]. destruct (parts_plus0 (rd 5 a) (rd 5 b)) as [-> ->]; [apply rd_loose; [lia|exact short5|assumption]..|]. reflexivity.
Qed.
Definition round_row (w : Z * list float) : Z * list float := (fst w, map (rd 5) (snd w)).
Definition rd2 (p : float * float) : float * float := (rd 5 (fst p), rd 5 (snd p)).
Definition round_modes (m : modes) : modes :=
  match m with
  | Normal lc n f mm vi hi => Normal lc n (rd 5 f) (rd 5 mm) (rd 5 vi) (rd 5 hi)
  | Response lc n f => Response lc n (rd 5 f)
  | Complex s lc n e a b => Complex s lc n (rd2 e) (rd2 a) (rd2 b)
  end.
Definition round55 (r : data55) : data55 :=
  {| v_ids := v_ids r; v_model := v_model r; v_ch := v_ch r; v_spec := v_spec r; v_modes := round_modes (v_modes r); v_kind := v_kind r;
     v_rows := map round_row (v_rows r) |}.
Definition tidy_modes (m : modes) : Prop :=
  match m with Complex _ _ _ _ _ _ => Forall plus0 (rec8 m) | _ => Forall normalf (rec8 m) end.
Definition tidy55 (r : data55) : Prop :=
  Forall (trim 80) (v_ids r) /\ tidy_modes (v_modes r) /\
  Forall (fun w => Forall (match v_kind r with Cplx3 => plus0 | _ => normalf end) (snd w)) (v_rows r).

Lemma nth_rd : forall i l, nth i (map (rd 5) l) f_zero = rd 5 (nth i l f_zero).
Proof. intros i l. rewrite <- (map_nth (rd 5)). reflexivity. Qed.
Lemma real_again : forall i rows, seq_of as_flt (real_out i rows) (colf i (map round_row rows)).
Proof.
  intros i rows. unfold real_out, vfloats, colf. rewrite !map_map. apply seq_arr. intros w _. unfold round_row. cbn [snd]. rewrite nth_rd. reflexivity.
Qed.
Lemma cplx_again : forall i rows, Forall (fun w => Forall loose (snd w)) rows -> seq_of as_cplx (cplx_out i rows) (colc i (map round_row rows)).
Proof.
  intros i rows H. unfold cplx_out, colc. rewrite !map_map. apply seq_arr. intros w Hw. rewrite Forall_forall in H. specialize (H w Hw).
  unfold round_row. cbn [snd fst]. rewrite !nth_rd.
  assert (P : forall j, loose (nth j (snd w) f_zero)).
  { intro j. destruct (nth_in_or_default j (snd w) f_zero) as [G|G]; [rewrite Forall_forall in H; apply H; exact G|].
    rewrite G. split; [reflexivity|discriminate]. }
  rewrite r6c_loose by apply P. split; reflexivity.
Qed.
Lemma fcells_rd : forall l, Forall normalf l -> cells_text (fcells (map (rd 5) l)) = cells_text (fcells l).
Proof. intros l H. unfold cells_text, fcells. rewrite cells_rd by assumption. reflexivity. Qed.
Lemma plus0_normal : forall l, Forall plus0 l -> Forall normalf l.
Proof. intros l H. eapply Forall_impl; [|exact H]. intros f [N _]. exact N. Qed.
