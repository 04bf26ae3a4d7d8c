(** Storing and reading back permanent groups (data sets 2429 and 2467). *)
From Verif Require Import PyBase PyNum PyVal Utf8 Tools DsNodes DsHeaders DsGroups Uff Facts IntFacts FloatFacts DecFacts FloatText FloatExact DictFacts
  Scan Container Append ContainerThms Utf8Facts Lines Stored Cells Rows RtNodes RtCs RtHeads RtElems.
From Coq Require Import Lia.
Open Scope nat_scope.
Open Scope list_scope.

(** The attributes of a group other than its entities; [p_sets]: the six active sets. *)
Record group := { p_num : Z; p_sets : list Z; p_name : str }.
Definition wf_group (g : group) : Prop := fits 10 (p_num g) /\ Forall (fits 10) (p_sets g) /\ length (p_sets g) = 6 /\ text_ok (p_name g).
(** The names of the six active sets, in the order of the record. *)
Definition group_keys : list string :=
  ["active_constraint_set_no_for_group"; "active_restraint_set_no_for_group"; "active_load_set_no_for_group";
   "active_dof_set_no_for_group"; "active_temperature_set_no_for_group"; "active_contact_set_no_for_group"]%string.
Definition group_out (g : group) (n : Z) : dict :=
  (KS "group_number", VInt (p_num g)) :: combine (map KS group_keys) (map VInt (p_sets g)) ++
  [(KS "number_of_entities_in_group", VInt n); (KS "group_name", VStr (strip (firstn 40 (p_name g))))].

(* ------------------------------------------------------------------ *)
(** ** Rows of entities *)

Definition chunk {A} (k : nat) (l : list A) (i : nat) : list A := firstn k (skipn (k * i) l).
Definition rows_up (k n : nat) : nat := (n + (k - 1)) / k.
Definition chunks {A} (k : nat) (l : list A) : list (list A) := map (chunk k l) (seq 0 (rows_up k (length l))).
Lemma chunks_concat_n : forall A k (l : list A) m, concat (map (chunk k l) (seq 0 m)) = firstn (k * m) l.
Proof.
  intros A k l m. induction m as [|m IH]; [rewrite Nat.mul_0_r; reflexivity|].
  rewrite seq_S, map_app, concat_app, IH. cbn [map concat plus]. rewrite app_nil_r. unfold chunk.
  replace (k * S m) with (k * m + k) by lia. rewrite <- (firstn_skipn (k * m) l) at 3.
  rewrite firstn_app. destruct (Nat.le_gt_cases (length l) (k * m)) as [H|H].
  - rewrite (skipn_all2 l) by assumption. rewrite !firstn_nil, !app_nil_r. rewrite firstn_firstn, Nat.min_r by lia. reflexivity.
  - rewrite firstn_length, Nat.min_l by lia. rewrite firstn_firstn, Nat.min_r by lia. f_equal. f_equal. lia.
Qed.
Lemma rows_up_le : forall k n, 0 < k -> n <= k * rows_up k n.
Proof.
  intros k n Hk. unfold rows_up. assert (H := Nat.div_mod (n + (k - 1)) k). assert (H2 := Nat.mod_upper_bound (n + (k - 1)) k). lia.
Qed.
Lemma chunks_concat : forall A k (l : list A), 0 < k -> concat (chunks k l) = l.
Proof. intros A k l Hk. unfold chunks. rewrite chunks_concat_n. apply firstn_all2. apply rows_up_le. assumption. Qed.
Lemma chunks_length : forall A k (l : list A), length (chunks k l) = rows_up k (length l).
Proof. intros. unfold chunks. rewrite map_length, seq_length. reflexivity. Qed.
Lemma rows_up_ceil : forall k n, 0 < k -> ceil_div (Z.of_nat n) (Z.of_nat k) = Z.of_nat (rows_up k n).
Proof.
  intros k n Hk. unfold ceil_div, rows_up. rewrite Nat2Z.inj_div. 
  assert (Hz : (0 < Z.of_nat k)%Z) by lia. set (K := Z.of_nat k) in *. set (M := Z.of_nat n).
  replace (Z.of_nat (n + (k - 1))) with (M + (K - 1))%Z by (unfold M, K; lia).
  assert (A1 := Z.div_mod (- M) K ltac:(lia)). assert (A2 := Z.mod_pos_bound (- M) K Hz).
  apply Z.div_unique with (r := (K - 1 - (- M) mod K)%Z); [left; lia|]. nia.
Qed.
Lemma chunk_last : forall A k (l : list A) i, 0 < k -> i < rows_up k (length l) -> chunk k l i <> [].
Proof.
  intros A k l i Hk Hi E. unfold chunk in E.
  assert (Hl : k * i < length l).
  { unfold rows_up in Hi. assert (H := Nat.div_mod (length l + (k - 1)) k ltac:(lia)).
    assert (H2 := Nat.mod_upper_bound (length l + (k - 1)) k ltac:(lia)).
    assert (k * S i <= k * ((length l + (k - 1)) / k)) by (apply Nat.mul_le_mono_l; lia). lia. }
  assert (E2 := f_equal (@length A) E). rewrite firstn_length, skipn_length in E2. cbn in E2. lia.
Qed.

(* ------------------------------------------------------------------ *)
(** ** Lines of a group *)

Definition head_ints (g : group) (n : nat) : list Z := p_num g :: p_sets g ++ [Z.of_nat n].
(** [cells]: the numbers of one entity; [k] entities in a line. *)
Definition ent_rows {E} (cells : E -> list Z) (k : nat) (es : list E) : list str := map (fun r => zline (flat_map cells r)) (chunks k es).
Definition group_lines {E} (cells : E -> list Z) (k : nat) (g : group) (es : list E) : list str :=
  zline (head_ints g (length es)) :: ljust 40 (p_name g) :: ent_rows cells k es.

Definition wf_ent {E} (cells : E -> list Z) (e : E) : Prop :=
  cells e <> [] /\ Forall (fits 9) (cells e) /\ last (cells e) 0%Z <> (-1)%Z.
Lemma flat_last : forall E (cells : E -> list Z) es, es <> [] -> Forall (wf_ent cells) es ->
  Forall (fits 9) (flat_map cells es) /\ flat_map cells es <> [] /\ last (flat_map cells es) 0%Z <> (-1)%Z.
Proof.
  intros E cells es Hne H. split.
  { apply Forall_fm. eapply Forall_impl; [|exact H]. intros e (_ & He & _). exact He. }
  destruct (exists_last Hne) as (r & e & ->). apply Forall_app in H as [_ H]. inversion H as [|? ? (He & _ & Hl) _]; subst.
  rewrite flat_map_app. cbn [flat_map]. rewrite app_nil_r. destruct (exists_last He) as (q & z & Ez). rewrite Ez in *. rewrite app_assoc.
  rewrite last_last in *. split; [|assumption]. intro Q. apply app_eq_nil in Q as [_ Q]. discriminate.
Qed.
Lemma chunk_forall : forall A (P : A -> Prop) k l i, Forall P l -> Forall P (chunk k l i).
Proof.
  intros A P k l i H. unfold chunk. rewrite <- (firstn_skipn (k * i) l) in H. apply Forall_app in H as [_ H].
  rewrite <- (firstn_skipn k (skipn (k * i) l)) in H. apply Forall_app in H as [H _]. exact H.
Qed.
Lemma row_ok : forall E (cells : E -> list Z) k es i, 0 < k -> i < rows_up k (length es) -> Forall (wf_ent cells) es ->
  okline (zline (flat_map cells (chunk k es i))) /\ split (zline (flat_map cells (chunk k es i))) = map dec_Z (flat_map cells (chunk k es i)).
Proof.
  intros E cells k es i Hk Hi H. assert (Hne := chunk_last _ _ _ _ Hk Hi). apply (chunk_forall _ _ k _ i) in H.
  destruct (flat_last _ _ _ Hne H) as (F1 & F2 & F3). destruct (flat_map cells (chunk k es i)) as [|a l]; [congruence|].
  inversion F1; subst. apply zline_ok; [apply fits_9_10; assumption|assumption|assumption].
Qed.
Lemma count_fits : forall n, (Z.of_nat n < 10 ^ 10)%Z -> fits 10 (Z.of_nat n).
Proof. intros n H. unfold fits. cbn in *. lia. Qed.
Lemma head_ok : forall g n, wf_group g -> fits 10 (Z.of_nat n) -> okline (zline (head_ints g n)) /\ Forall width_ok (map (CI 10) (head_ints g n)).
Proof.
  intros g n (W1 & W2 & W3 & W4) Hn. unfold head_ints.
  assert (F : Forall width_ok (map (CI 10) (p_num g :: p_sets g ++ [Z.of_nat n]))).
  { rewrite Forall_map. constructor; [apply fits_le; [lia|assumption]|]. apply Forall_app. split.
    - eapply Forall_impl; [|exact W2]. intros z Hz. apply fits_le; [lia|assumption].
    - constructor; [apply fits_le; [lia|assumption]|constructor]. }
  split; [|assumption]. unfold zline. rewrite app_comm_cons, map_app in *. cbn [map] in *. apply okline_nums; [|assumption|].
  - apply Forall_app. split; [|constructor; [cbn [num_cell]; lia|constructor]]. constructor; [cbn [num_cell]; lia|].
    rewrite Forall_map, Forall_forall. intros; cbn [num_cell]; lia.
  - cbn [last_ok]. split; [lia|lia].
Qed.
Lemma group_lines_ok : forall E (cells : E -> list Z) k g es, 0 < k -> wf_group g -> fits 10 (Z.of_nat (length es)) -> Forall (wf_ent cells) es ->
  Forall okline (group_lines cells k g es).
Proof.
  intros E cells k g es Hk Hg Hn He. unfold group_lines. constructor; [apply head_ok; assumption|]. constructor.
  - apply text_ok_line. apply Hg.
  - unfold ent_rows, chunks. rewrite map_map, Forall_map, Forall_forall. intros i Hi. apply in_seq in Hi. apply row_ok; [assumption|lia|assumption].
Qed.

(* ------------------------------------------------------------------ *)
(** ** Reading a group *)

(** The lines with or without their line ends. *)
Definition endl (tl l : str) : str := l ++ tl.
Definition ended (tl : str) : Prop := tl = [] \/ tl = [LF].
Lemma header_cells_tl : forall tl l mn widths types names vals, ended tl ->
  Forall width_ok l -> widths = map cell_width l ->
  length l = length vals -> length types = length vals -> length names = length vals -> mn <= length vals ->
  Forall2 (fun tf v => field_val (fst tf) (snd tf) = Ok v) (combine types (map strip (map cell_text l))) vals ->
  parse_header_line (cells_text l ++ tl) mn widths types names = Ok (put_all [] (combine names vals)).
Proof.
  intros tl l mn widths types names vals Htl Hl -> H1 H2 H3 H4 H5.
  apply (header_segs (map cell_text l) tl _ mn _ []); try assumption; try reflexivity.
  - destruct Htl; subst; reflexivity.
  - rewrite cells_lengths, app_nil_r by assumption. reflexivity.
  - rewrite map_length. cbn [length]. lia.
  - cbn [length repeat]. rewrite app_nil_r. assumption.
Qed.
Lemma strip_firstn_just : forall w s n, strip (firstn w (ljust w s ++ n)) = strip (firstn w s).
Proof.
  intros w s n. unfold ljust. destruct (Nat.le_gt_cases (length s) w) as [H|H].
  - rewrite firstn_app_exact by (rewrite app_length, repeat_length; lia). rewrite (firstn_short _ w s) by assumption.
    apply (strip_by_post is_ws). apply blanks_ws.
  - replace (w - length s) with 0 by lia. cbn [repeat]. rewrite app_nil_r. rewrite firstn_app.
    replace (w - length s) with 0 by lia. rewrite firstn_O, app_nil_r. reflexivity.
Qed.
Lemma name_read : forall tl s, group_name_rec (ljust 40 s ++ tl) = Ok [(KS "group_name", VStr (strip (firstn 40 s)))].
Proof.
  intros tl s. unfold group_name_rec. rewrite (header_fields _ _ _ _ _ [strip (firstn 40 s)] [Some (VStr (strip (firstn 40 s)))]); try reflexivity.
  - cbn [cut_fields]. destruct (extend80_app (ljust 40 s ++ tl)) as [n ->]. rewrite <- app_assoc.
    rewrite strip_firstn_just. reflexivity.
  - constructor; [|constructor]. reflexivity.
Qed.
Lemma head_read : forall tl g n, ended tl -> wf_group g -> fits 10 (Z.of_nat n) -> exists g1,
  group_header (zline (head_ints g n) ++ tl) = Ok g1 /\
  dupdate g1 [(KS "group_name", VStr (strip (firstn 40 (p_name g))))] = group_out g (Z.of_nat n).
Proof.
  intros tl g n Htl Hg Hn. destruct (head_ok g n Hg Hn) as [_ Hw]. destruct Hg as (_ & _ & W3 & _). unfold head_ints, group_out in *.
  destruct (p_sets g) as [|a [|b [|c [|d [|e [|f [|? ?]]]]]]]; try discriminate.
  eexists. split.
  - unfold group_header, zline. apply (header_cells_tl tl _ _ _ _ _ (map (fun z => Some (VInt z)) [p_num g; a; b; c; d; e; f; Z.of_nat n])); try assumption; try reflexivity; try (cbn; lia).
    cbn [map combine]. hdr_vals.
  - reflexivity.
Qed.

Lemma slice_mid : forall A (pre mid post : list A), py_slice (Z.of_nat (length pre)) (Z.of_nat (length pre + length mid)) (pre ++ mid ++ post) = mid.
Proof.
  intros A pre mid post. unfold py_slice, norm_bound. rewrite !app_length.
  rewrite !(proj2 (Z.ltb_ge _ 0)) by lia.
  replace (Z.to_nat (Z.max 0 (Z.min (Z.of_nat (length pre)) (Z.of_nat (length pre + (length mid + length post)))))) with (length pre) by lia.
  replace (Z.to_nat (Z.max 0 (Z.min (Z.of_nat (length pre + length mid)) (Z.of_nat (length pre + (length mid + length post)))))) with (length pre + length mid) by lia.
  unfold slice. rewrite skipn_app_exact by reflexivity. replace (length pre + length mid - length pre) with (length mid) by lia.
  apply firstn_app_exact. reflexivity.
Qed.
Lemma fits_int64 : forall z, fits 9 z -> int64_ok z = true.
Proof. intros z [H1 H2]. unfold int64_ok. apply andb_true_iff. split; [apply Z.leb_le|apply Z.ltb_lt]; cbn in *; lia. Qed.
Lemma split_end : forall s tl, ended tl -> split (s ++ tl) = split s.
Proof. intros s tl [->| ->]; [rewrite app_nil_r; reflexivity|]. rewrite split_app_ws by reflexivity. rewrite app_nil_r. reflexivity. Qed.
Lemma rows_read : forall E (cells : E -> list Z) k es tl, 0 < k -> ended tl -> Forall (wf_ent cells) es ->
  line_ints (map (endl tl) (ent_rows cells k es)) = Ok (flat_map cells es).
Proof.
  intros E cells k es tl Hk Htl H. unfold line_ints, ent_rows, chunks. rewrite !map_map. unfold rmap. rewrite map_map.
  rewrite (rseq_map_ok _ _ _ (fun i => flat_map cells (chunk k es i))).
  - cbn [rbind].
    assert (Ec : concat (map (fun i => flat_map cells (chunk k es i)) (seq 0 (rows_up k (length es)))) = flat_map cells es).
    { transitivity (flat_map cells (concat (chunks k es))); [|rewrite chunks_concat by assumption; reflexivity].
      unfold chunks. generalize (seq 0 (rows_up k (length es))). intro q. induction q as [|i q IH]; [reflexivity|].
      cbn [map concat]. rewrite flat_map_app, IH. reflexivity. }
    rewrite Ec. unfold np_int_array.
    replace (forallb int64_ok (flat_map cells es)) with true; [reflexivity|]. symmetry. apply forallb_forall. intros z Hz. apply fits_int64.
    apply in_flat_map in Hz as (e & He & Hz). rewrite Forall_forall in H. destruct (H e He) as (_ & F & _). rewrite Forall_forall in F. auto.
  - intros i Hi. apply in_seq in Hi. unfold endl. rewrite split_end by assumption. destruct (row_ok E cells k es i Hk ltac:(lia) H) as [_ ->]. apply parse_ints_dec.
Qed.

(** Positions in [pre ++ group ++ post]. *)
Lemma group_at : forall E (cells : E -> list Z) k g es tl (pre post : list str), 0 < k -> ended tl -> wf_group g -> fits 10 (Z.of_nat (length es)) ->
  Forall (wf_ent cells) es ->
  let lines := pre ++ map (endl tl) (group_lines cells k g es) ++ post in
  let li := Z.of_nat (length pre) in
  let last := (ceil_div (Z.of_nat (length es)) (Z.of_nat k) + li + 2)%Z in
  (exists g1, (do l0 <- py_nth lines li ;; group_header l0) = Ok g1 /\
    dupdate g1 [(KS "group_name", VStr (strip (firstn 40 (p_name g))))] = group_out g (Z.of_nat (length es))) /\
  (do l1 <- py_nth lines (li + 1) ;; group_name_rec l1) = Ok [(KS "group_name", VStr (strip (firstn 40 (p_name g))))] /\
  line_ints (py_slice (li + 2) last lines) = Ok (flat_map cells es) /\
  last = Z.of_nat (length pre + length (group_lines cells k g es)).
Proof.
  intros E cells k g es tl pre post Hk Htl Hg Hn He lines li last. unfold lines, li, group_lines. cbn [map].
  assert (Elast : last = Z.of_nat (length pre + (2 + length (ent_rows cells k es)))).
  { unfold last, li. rewrite rows_up_ceil by assumption. unfold ent_rows. rewrite map_length, chunks_length. lia. }
  repeat split.
  - rewrite (py_nth_ok _ _ (length pre) (zline (head_ints g (length es)) ++ tl)).
    2:{ rewrite nth_error_app2, Nat.sub_diag by lia. reflexivity. }
    cbn [rbind]. apply head_read; assumption.
  - replace (Z.of_nat (length pre) + 1)%Z with (Z.of_nat (length pre + 1)) by lia.
    rewrite (py_nth_ok _ _ (length pre + 1) (ljust 40 (p_name g) ++ tl)).
    2:{ rewrite nth_error_app2 by lia. replace (length pre + 1 - length pre) with 1 by lia. reflexivity. }
    cbn [rbind]. apply name_read.
  - rewrite Elast.
    set (h := endl tl (zline (head_ints g (length es)))). set (nm := endl tl (ljust 40 (p_name g))). set (mid := map (endl tl) (ent_rows cells k es)).
    replace (pre ++ (h :: nm :: mid) ++ post) with ((pre ++ [h; nm]) ++ mid ++ post) by (rewrite <- app_assoc; reflexivity).
    replace (Z.of_nat (length pre) + 2)%Z with (Z.of_nat (length (pre ++ [h; nm]))) by (rewrite app_length; cbn [length]; lia).
    assert (El : length pre + (2 + length (ent_rows cells k es)) = length (pre ++ [h; nm]) + length mid) by (unfold mid; rewrite app_length, map_length; cbn [length]; rewrite Nat.add_assoc; reflexivity).
    rewrite El.
    rewrite slice_mid. apply rows_read; assumption.
  - rewrite Elast. cbn [length]. reflexivity.
Qed.

(* ------------------------------------------------------------------ *)
(** ** Writing rows *)

Lemma nth_chunk : forall A k (l : list A) i j a, nth_error (chunk k l i) j = Some a -> nth_error l (k * i + j) = Some a.
Proof.
  intros A k l i j a H. unfold chunk in H. rewrite <- (firstn_skipn (k * i) l).
  destruct (Nat.le_gt_cases (length l) (k * i)) as [Hl|Hl].
  { rewrite (skipn_all2 l) in H by assumption. rewrite firstn_nil in H. destruct j; discriminate. }
  rewrite nth_error_app2 by (rewrite firstn_length; lia). rewrite firstn_length, Nat.min_l by lia.
  replace (k * i + j - k * i) with j by lia. rewrite <- (firstn_skipn k (skipn (k * i) l)).
  rewrite nth_error_app1; [assumption|]. apply nth_error_Some. congruence.
Qed.
Lemma writes_seq : forall (f : nat -> item) (g : nat -> str) l, (forall i, In i l -> writes [f i] (g i ++ [LF])) ->
  writes (map f l) (unlines (map g l)).
Proof.
  intros f g l H. induction l as [|i l IH]; [constructor|]. cbn [map]. rewrite unlines_cons'.
  apply (writes_app [f i]); [apply H; left; reflexivity|]. apply IH. intros j Hj. apply H. right. assumption.
Qed.

(* ------------------------------------------------------------------ *)
(** ** 2467 *)

(** Entity: type code, tag, node leaf id, component id. *)
Definition ent4 := (Z * Z * Z * Z)%type.
Definition x_code (e : ent4) : Z := let '(a, _, _, _) := e in a.
Definition x_tag (e : ent4) : Z := let '(_, a, _, _) := e in a.
Definition x_leaf (e : ent4) : Z := let '(_, _, a, _) := e in a.
Definition x_comp (e : ent4) : Z := let '(_, _, _, a) := e in a.
Definition cells4 (e : ent4) : list Z := [x_code e; x_tag e; x_leaf e; x_comp e].
Definition sets_of (d : dict) (l : list Z) : Prop := Forall2 (fun k z => has as_int d k z) group_keys l.
Definition repr_group (v : pyval) (g : group * list ent4) : Prop := exists d, v = VDict d /\
  has as_int d "group_number" (p_num (fst g)) /\ sets_of d (p_sets (fst g)) /\ has as_txt d "group_name" (p_name (fst g)) /\
  has (seq_of as_int) d "entity_type_code" (map x_code (snd g)) /\ has (seq_of as_int) d "entity_tag" (map x_tag (snd g)) /\
  has (seq_of as_int) d "entity_node_leaf_id" (map x_leaf (snd g)) /\ has (seq_of as_int) d "entity_component_id" (map x_comp (snd g)).
Definition repr2467 (d : dict) (l : list (group * list ent4)) : Prop :=
  dget d (KS "type") = Some (VInt 2467) /\ dget d (KS "data") = None /\ has (seq_of repr_group) d "groups" l.
Definition wf2467 (l : list (group * list ent4)) : Prop := Forall (fun g => wf_group (fst g) /\ fits 10 (Z.of_nat (length (snd g))) /\
  Forall (fun e => Forall (fits 9) (cells4 e) /\ x_comp e <> (-1)%Z) (snd g)) l.
Definition out2467 (g : group * list ent4) : dict :=
  group_out (fst g) (Z.of_nat (length (snd g))) ++
  [(KS "entity_type_code", vints (map x_code (snd g))); (KS "entity_tag", vints (map x_tag (snd g)));
   (KS "entity_node_leaf_id", vints (map x_leaf (snd g))); (KS "entity_component_id", vints (map x_comp (snd g)))].
Definition read2467 (l : list (group * list ent4)) : dict :=
  [(KS "type", VInt 2467); (KS "groups", VList (map (fun g => VDict (out2467 g)) l))] ++
  map (fun k => (KS k, VList [])) ("group_ids" :: group_keys ++ ["num_of_entities_in_group"; "group_name"; "entity_type_code"; "entity_tag";
      "entity_node_leaf_id"; "entity_component_id"])%string.

Lemma wf_ent4 : forall e, Forall (fits 9) (cells4 e) /\ x_comp e <> (-1)%Z -> wf_ent cells4 e.
Proof. intros e [H1 H2]. repeat split; [discriminate|assumption|exact H2]. Qed.

Lemma sets_args : forall (f : string -> result pyval) d zs, (forall k, f k = ix d k) -> sets_of d zs ->
  exists a b c e g h, zs = [a; b; c; e; g; h] /\
  Forall2 gi (map f group_keys) [a; b; c; e; g; h].
Proof.
  intros f d zs Hf H. unfold sets_of, group_keys in H.
  repeat match goal with H : Forall2 _ (_ :: _) _ |- _ => inversion H; subst; clear H end.
  match goal with H : Forall2 _ [] _ |- _ => inversion H; subst; clear H end.
  do 6 eexists. split; [reflexivity|]. cbn [map group_keys]. repeat (constructor; [rewrite Hf; apply has_gi; assumption|]). constructor.
Qed.
Lemma len_arg_ok : forall r n, (do v <- r ;; py_len v) = Ok n -> gi (len_arg r) (Z.of_nat n).
Proof.
  intros r n H. unfold len_arg. destruct r as [v|]; [|discriminate]. cbn [rbind] in *. rewrite H. reflexivity.
Qed.
Lemma head_writes : forall (f : string -> result pyval) d g n rest t, (forall k, f k = ix d k) ->
  has as_int d "group_number" (p_num g) -> sets_of d (p_sets g) -> (do v <- f "entity_type_code"%string ;; py_len v) = Ok n -> has as_txt d "group_name" (p_name g) ->
  writes rest t ->
  writes (txt "%10i%10i%10i%10i%10i%10i%10i%10i\n" (f "group_number"%string :: map f group_keys ++ [len_arg (f "entity_type_code"%string)])
      :: txt "%-40s\n" [f "group_name"%string] :: rest)
    (unlines [zline (head_ints g n); ljust 40 (p_name g)] ++ t).
Proof.
  intros f d g n rest t Hf R1 R2 R3 R4 Hr. destruct (sets_args f d _ Hf R2) as (s1 & s2 & s3 & s4 & s5 & s6 & Es & Fs).
  eapply writes_eq.
  { apply (writes_line _ _ (map (CI 10) (head_ints g n))).
    - unfold head_ints. rewrite Es. reflexivity.
    - unfold head_ints. rewrite Es. cbn [map group_keys] in *.
      repeat match goal with H : Forall2 gi (_ :: _) _ |- _ => inversion H; subst; clear H end.
      cbn [app map cells_args]. repeat split; try assumption; [rewrite Hf; apply has_gi; assumption|apply len_arg_ok; assumption].
    - apply (writes_line _ _ [CS true 40 (p_name g)]); [reflexivity| |exact Hr]. cbn [cells_args app]. split; [rewrite Hf; apply has_gs; assumption|exact Logic.I]. }
  rewrite !unlines_cons'. cbn [unlines map concat]. rewrite cells_one. cbn [cell_text]. unfold zline. rewrite <- !app_assoc. reflexivity.
Qed.
Lemma ent_gi : forall d es i e, nth_error es i = Some e ->
  has (seq_of as_int) d "entity_type_code" (map x_code es) -> has (seq_of as_int) d "entity_tag" (map x_tag es) ->
  has (seq_of as_int) d "entity_node_leaf_id" (map x_leaf es) -> has (seq_of as_int) d "entity_component_id" (map x_comp es) ->
  exists a b c f, ent_fields (VDict d) i = [a; b; c; f] /\ gi a (x_code e) /\ gi b (x_tag e) /\ gi c (x_leaf e) /\ gi f (x_comp e).
Proof.
  intros d es i e Hi H1 H2 H3 H4. do 4 eexists. split; [reflexivity|].
  repeat split.
  - apply (has_gi_at d "entity_type_code" _ _ _ H1). apply map_nth_error. assumption.
  - apply (has_gi_at d "entity_tag" _ _ _ H2). apply map_nth_error. assumption.
  - apply (has_gi_at d "entity_node_leaf_id" _ _ _ H3). apply map_nth_error. assumption.
  - apply (has_gi_at d "entity_component_id" _ _ _ H4). apply map_nth_error. assumption.
Qed.
Lemma chunk_length : forall A k (l : list A) i, length (chunk k l i) = Nat.min k (length l - k * i).
Proof. intros. unfold chunk. rewrite firstn_length, skipn_length. reflexivity. Qed.
Lemma unlines_head : forall n g l, unlines (zline (head_ints g n) :: ljust 40 (p_name g) :: l) = unlines [zline (head_ints g n); ljust 40 (p_name g)] ++ unlines l.
Proof. intros n g l. exact (unlines_app [zline (head_ints g n); ljust 40 (p_name g)] l). Qed.
Lemma group_writes : forall v g rest t, repr_group v g -> writes rest t ->
  writes (group2467 v ++ rest) (unlines (group_lines cells4 2 (fst g) (snd g)) ++ t).
Proof.
  intros v [g es] rest t (d & -> & R1 & R2 & R3 & R4 & R5 & R6 & R7) Hr. cbn [fst snd] in *. unfold group2467.
  assert (Hlen : (do v <- vix (VDict d) "entity_type_code" ;; py_len v) = Ok (length es)).
  { rewrite <- (map_length x_code es). exact (has_len _ _ _ _ _ R4). }
  rewrite Hlen. unfold group_lines. cbn [app].
  eapply writes_eq.
  { apply (head_writes (vix (VDict d)) d g (length es)); [reflexivity|assumption|assumption|exact Hlen|assumption|].
    apply writes_app; [|exact Hr]. unfold ent_lines. change ((length es + 1) / 2) with (rows_up 2 (length es)).
    apply (writes_seq _ (fun i => zline (flat_map cells4 (chunk 2 es i)))). intros i Hi. apply in_seq in Hi.
    assert (Hne := chunk_last _ 2 es i ltac:(lia) ltac:(lia)). assert (Hl := chunk_length _ 2 es i).
    destruct (chunk 2 es i) as [|e1 [|e2 [|? ?]]] eqn:Ec; [congruence| | |cbn [length] in Hl; lia]; cbn [length] in Hl; cbv zeta.
    - rewrite (proj2 (Nat.ltb_ge _ _)) by lia.
      assert (N1 : nth_error es (2 * i) = Some e1) by (rewrite <- (Nat.add_0_r (2 * i)); apply nth_chunk; rewrite Ec; reflexivity).
      destruct (ent_gi d es _ _ N1 R4 R5 R6 R7) as (a & b & c & f & -> & G1 & G2 & G3 & G4).
      rewrite <- (app_nil_r (_ ++ [LF])). apply (writes_line _ _ (map (CI 10) (cells4 e1))); [reflexivity| |constructor].
      cbn [map cells4 cells_args app]. auto 10.
    - rewrite (proj2 (Nat.ltb_lt _ _)) by lia.
      assert (N1 : nth_error es (2 * i) = Some e1) by (rewrite <- (Nat.add_0_r (2 * i)); apply nth_chunk; rewrite Ec; reflexivity).
      assert (N2 : nth_error es (2 * i + 1) = Some e2) by (apply nth_chunk; rewrite Ec; reflexivity).
      destruct (ent_gi d es _ _ N1 R4 R5 R6 R7) as (a & b & c & f & -> & G1 & G2 & G3 & G4).
      destruct (ent_gi d es _ _ N2 R4 R5 R6 R7) as (a' & b' & c' & f' & -> & G1' & G2' & G3' & G4').
      rewrite <- (app_nil_r (_ ++ [LF])). apply (writes_line _ _ (map (CI 10) (cells4 e1 ++ cells4 e2))); [reflexivity| |constructor].
      cbn [map cells4 cells_args app]. auto 20. }
  unfold ent_rows, chunks. rewrite map_map.
  rewrite (unlines_head _ _ (map _ (seq _ _))). rewrite <- app_assoc. reflexivity.
Qed.

Lemma every4 : forall es, every 0 4 (flat_map cells4 es) = map x_code es /\ every 1 4 (flat_map cells4 es) = map x_tag es /\
  every 2 4 (flat_map cells4 es) = map x_leaf es /\ every 3 4 (flat_map cells4 es) = map x_comp es.
Proof. intro es. repeat split; (apply every_table1; [lia|intro e; split; reflexivity]). Qed.
Lemma group_out_count : forall g n, length (p_sets g) = 6 -> count_of (group_out g n) = Ok n.
Proof.
  intros g n H. unfold group_out. destruct (p_sets g) as [|a [|b [|c [|d [|e [|f [|? ?]]]]]]]; try discriminate. reflexivity.
Qed.
Definition glines2467 (g : group * list ent4) : list str := group_lines cells4 2 (fst g) (snd g).
Lemma loop2467_ok : forall gs (pre : list str) acc fuel, wf2467 gs -> length gs <= fuel ->
  loop2467 fuel (pre ++ map (endl [LF]) (flat_map glines2467 gs)) (Z.of_nat (length pre)) acc = Ok (acc ++ map (fun g => VDict (out2467 g)) gs).
Proof.
  induction gs as [|[g es] gs IH]; intros pre acc fuel Hw Hf.
  - cbn [flat_map map]. rewrite !app_nil_r. destruct fuel; cbn [loop2467]; rewrite Z.ltb_irrefl; reflexivity.
  - inversion Hw as [|? ? (W1 & W2 & W3) Hws]; subst. cbn [fst snd] in *. destruct fuel as [|fuel]; [cbn in Hf; lia|].
    cbn [flat_map]. rewrite map_app. unfold glines2467 at 1. cbn [fst snd].
    assert (Hen : Forall (wf_ent cells4) es) by (eapply Forall_impl; [|exact W3]; exact wf_ent4).
    destruct (group_at _ cells4 2 g es [LF] pre (map (endl [LF]) (flat_map glines2467 gs)) ltac:(lia) (or_intror eq_refl) W1 W2 Hen)
      as ((g1 & G1 & G2) & G3 & G4 & G5).
    set (lines := pre ++ _ ++ _) in *. cbn [loop2467].
    match goal with |- (if ?b then _ else _) = _ => assert (Hlt : b = true) end.
    { apply Z.ltb_lt. unfold lines, group_lines. rewrite !app_length. cbn [map length]. lia. }
    rewrite Hlt. destruct (py_nth lines (Z.of_nat (length pre))) as [l0|]; [|discriminate]. cbn [rbind] in G1 |- *. rewrite G1. cbn [rbind].
    destruct (py_nth lines (Z.of_nat (length pre) + 1)) as [l1|]; [|discriminate]. cbn [rbind] in G3 |- *. rewrite G3. cbn [rbind].
    rewrite G2. rewrite group_out_count by apply W1. cbn [rbind]. change (Z.of_nat 2) with 2%Z in *. rewrite G4. cbn [rbind]. rewrite G5.
    destruct (every4 es) as (-> & -> & -> & ->).
    set (gl := map (endl [LF]) (group_lines cells4 2 g es)) in *.
    replace (Z.of_nat (length pre + length (group_lines cells4 2 g es))) with (Z.of_nat (length (pre ++ gl))) by (unfold gl; rewrite app_length, map_length; reflexivity).
    unfold lines. rewrite app_assoc. rewrite IH by (assumption || (cbn in Hf; lia)).
    rewrite <- app_assoc. cbn [app map]. do 3 f_equal.
    unfold out2467, group_out. cbn [fst snd]. destruct W1 as (_ & _ & W1 & _).
    destruct (p_sets g) as [|a [|b [|c [|d [|e [|f [|? ?]]]]]]]; try discriminate. reflexivity.
Qed.

Definition hdr2467 : str := lit "  2467".
Definition hdr2429 : str := lit "  2429".
Lemma hdr6_ok : forall s, length s = 6 -> plain s -> s <> TAG -> okline s.
Proof.
  intros s Hl Hp Hn. apply okline_plain; [assumption| |lia]. intros [p Hq]. assert (El := f_equal (@length N) Hq). rewrite app_length in El. cbn in El.
  destruct p; [apply Hn; exact Hq|cbn in El; lia].
Qed.
Lemma groups_len : forall gs, length gs <= length (flat_map glines2467 gs).
Proof.
  induction gs as [|g gs IH]; [reflexivity|]. cbn [flat_map length]. rewrite app_length. unfold glines2467 at 1, group_lines. cbn [length]. lia.
Qed.
Lemma set2467 : forall c m fd ho d l, repr2467 d l -> wf2467 l ->
  text_set c m fd ho d 2467 hdr2467 (flat_map glines2467 l) (read2467 l).
Proof.
  intros c m fd ho d l (Hty & Hdat & R) Hw.
  assert (Hok : Forall okline (hdr2467 :: flat_map glines2467 l)).
  { constructor; [apply hdr6_ok; [reflexivity|apply plain_ascii; reflexivity|discriminate]|]. apply Forall_fm. eapply Forall_impl; [|exact Hw].
    intros [g es] (W1 & W2 & W3). apply group_lines_ok; [lia|assumption|assumption|]. eapply Forall_impl; [|exact W3]. exact wf_ent4. }
  constructor; [|assumption|reflexivity|].
  - rewrite (set_items_text c m fd d (VInt 2467) Hty Hdat). change (write_dispatch c m fd (VInt 2467) d) with (write2467 d). unfold write2467.
    cbn [wp_items]. lift R. set (d1 := opt_fields d _) in *. clearbody d1. destruct (has_get _ _ _ _ _ R) as (v & -> & gs & Es & H2). cbn [rbind].
    rewrite Es. rewrite unlines_cons', app_assoc. rewrite <- app_assoc. eapply writes_eq.
    { apply writes_consr; [reflexivity|]. 
      assert (Hg : forall rest t, writes rest t -> writes (flat_map group2467 gs ++ rest) (unlines (flat_map glines2467 l) ++ t)).
      { clear -H2. induction H2 as [|v g gs l Hv _ IH]; intros rest t Hr; [exact Hr|]. cbn [flat_map]. rewrite unlines_app, <- !app_assoc.
        apply group_writes; [assumption|]. apply IH. assumption. }
      apply Hg. exact end_writes. }
    rewrite <- !app_assoc. reflexivity.
  - intros block _ Hb. unfold extract_set. rewrite Hb. cbn [Z.eqb Pos.eqb]. unfold extract2467, extract2467_fuel.
    rewrite split_text by assumption. cbv beta iota zeta. cbn [map skipn].
    assert (L := loop2467_ok l [] [] (2 * length (@cons str (TAG ++ [LF]) ((hdr2467 ++ [LF]) :: map (endl [LF]) (flat_map glines2467 l))) + 2) Hw).
    cbn [app length Z.of_nat] in L |- *. 
    match goal with |- context [loop2467 ?f ?x ?z ?y] => match type of L with _ -> loop2467 ?f' ?x' ?z' ?y' = _ => change (loop2467 f x z y) with (loop2467 f' x' z' y') end end.
    rewrite L.
    + cbn [rbind]. reflexivity.
    + rewrite map_length. assert (Hl := groups_len l). lia.
Qed.

(* ------------------------------------------------------------------ *)
(** ** 2429 *)

Definition cells2 (e : Z * Z) : list Z := [fst e; snd e].
Definition sets_or (d : dict) (l : list Z) : Prop := Forall2 (fun k z => has_or as_int d k z 0%Z) group_keys l.
(** One group; its attributes are those of the data set. *)
Definition repr2429 (d : dict) (g : group) (es : list (Z * Z)) : Prop :=
  dget d (KS "type") = Some (VInt 2429) /\ dget d (KS "data") = None /\
  has as_int d "group_number" (p_num g) /\ sets_or d (p_sets g) /\ has as_txt d "group_name" (p_name g) /\
  has (seq_of as_int) d "entity_type_code" (map fst es) /\ has (seq_of as_int) d "entity_tag" (map snd es).
(** The entities of the last, incomplete, line are those at 0, 4, 8 (dataset_2429.py:140). *)
Definition last_row_ok (es : list (Z * Z)) : Prop :=
  forall i, i < length es mod 4 -> nth_error es (i * 4) = nth_error es (4 * (length es / 4) + i).
Definition wf2429 (g : group) (es : list (Z * Z)) : Prop :=
  wf_group g /\ fits 10 (Z.of_nat (length es)) /\ es <> [] /\
  Forall (fun e => Forall (fits 9) (cells2 e) /\ snd e <> (-1)%Z) es /\ last_row_ok es.
Definition read2429 (g : group) (es : list (Z * Z)) : dict :=
  [(KS "type", VInt 2429);
   (KS "groups", VList [VDict (group_out g (Z.of_nat (length es)) ++
      [(KS "entity_type_code", vints (map fst es)); (KS "entity_tag", vints (map snd es))])])].
Lemma wf_ent2 : forall e, Forall (fits 9) (cells2 e) /\ snd e <> (-1)%Z -> wf_ent cells2 e.
Proof. intros e [H1 H2]. repeat split; [discriminate|assumption|exact H2]. Qed.

Lemma mod_rows : forall n, rows_up 4 n = n / 4 + (if Nat.eqb (n mod 4) 0 then 0 else 1).
Proof.
  intro n. unfold rows_up. assert (H := Nat.div_mod n 4 ltac:(lia)). assert (H2 := Nat.mod_upper_bound n 4 ltac:(lia)).
  set (q := n / 4) in *. set (r := n mod 4) in *. destruct (Nat.eqb_spec r 0).
  - symmetry. apply Nat.div_unique with (r := 3); lia.
  - symmetry. apply Nat.div_unique with (r := r - 1); lia.
Qed.

Definition top2429 : list str := [TAG; hdr2429].
Lemma set2429 : forall c m fd ho d g es, repr2429 d g es -> wf2429 g es ->
  text_set c m fd ho d 2429 hdr2429 (group_lines cells2 4 g es) (read2429 g es).
Proof.
  intros c m fd ho d g es (Hty & Hdat & R1 & R2 & R3 & R4 & R5) (W1 & W2 & W3 & W4 & W5).
  assert (Hen : Forall (wf_ent cells2) es) by (eapply Forall_impl; [|exact W4]; exact wf_ent2).
  assert (Hok : Forall okline (hdr2429 :: group_lines cells2 4 g es)).
  { constructor; [apply hdr6_ok; [reflexivity|apply plain_ascii; reflexivity|discriminate]|]. apply group_lines_ok; [lia|assumption|assumption|assumption]. }
  constructor; [|assumption|reflexivity|].
  - rewrite (set_items_text c m fd d (VInt 2429) Hty Hdat). change (write_dispatch c m fd (VInt 2429) d) with (write2429 d). unfold write2429.
    cbn [wp_items]. lift R1; lift R3; lift R4; lift R5. set (d1 := opt_fields d _) in *.
    assert (Rs : sets_of d1 (p_sets g)).
    { unfold sets_or in R2. unfold sets_of. unfold group_keys in *.
      repeat match goal with H : Forall2 _ (_ :: _) _ |- _ => inversion H; subst; clear H end.
      match goal with H : Forall2 _ [] _ |- _ => inversion H; subst; clear H end.
      repeat (constructor; [unfold d1; eapply has_opt_or; [eassumption|reflexivity|reflexivity]|]). constructor. }
    clearbody d1.
    assert (Hlen : (do v <- ix d1 "entity_type_code" ;; py_len v) = Ok (length es)).
    { rewrite <- (map_length fst es). exact (has_len _ _ _ _ _ R4). }
    rewrite Hlen. set (n := length es) in *.
    assert (Gi : forall i e, nth_error es i = Some e -> gi (at_ (ix d1 "entity_type_code") (Z.of_nat i)) (fst e) /\ gi (at_ (ix d1 "entity_tag") (Z.of_nat i)) (snd e)).
    { intros i e Hi. split; [apply (has_gi_at d1 "entity_type_code" _ _ _ R4)|apply (has_gi_at d1 "entity_tag" _ _ _ R5)]; apply map_nth_error; assumption. }
    assert (Hd := Nat.div_mod n 4 ltac:(lia)). assert (Hm := Nat.mod_upper_bound n 4 ltac:(lia)).
    rewrite unlines_cons'. eapply writes_eq.
    { apply writes_consr; [reflexivity|].
      apply (head_writes (ix d1) d1 g n); [reflexivity|assumption|assumption|exact Hlen|assumption|].
      apply writes_app with (s := unlines (map (fun i => zline (flat_map cells2 (chunk 4 es i))) (seq 0 (n / 4)))).
      - apply writes_seq. intros i Hi. apply in_seq in Hi. assert (Hl := chunk_length _ 4 es i). fold n in Hl.
        destruct (chunk 4 es i) as [|e1 [|e2 [|e3 [|e4 [|? ?]]]]] eqn:Ec; cbn [length] in Hl; try lia.
        assert (N1 : nth_error es (i * 4) = Some e1) by (replace (i * 4) with (4 * i + 0) by lia; apply nth_chunk; rewrite Ec; reflexivity).
        assert (N2 : nth_error es (i * 4 + 1) = Some e2) by (replace (i * 4) with (4 * i) by lia; apply nth_chunk; rewrite Ec; reflexivity).
        assert (N3 : nth_error es (i * 4 + 2) = Some e3) by (replace (i * 4) with (4 * i) by lia; apply nth_chunk; rewrite Ec; reflexivity).
        assert (N4 : nth_error es (i * 4 + 3) = Some e4) by (replace (i * 4) with (4 * i) by lia; apply nth_chunk; rewrite Ec; reflexivity).
        destruct (Gi _ _ N1), (Gi _ _ N2), (Gi _ _ N3), (Gi _ _ N4).
        rewrite <- (app_nil_r (_ ++ [LF])). apply (writes_line _ _ (map (CI 10) (flat_map cells2 [e1; e2; e3; e4]))); [reflexivity| |constructor].
        cbn [map flat_map cells2 cells_args app]. auto 20.
      - apply writes_app with (s := zline (flat_map cells2 (skipn (4 * (n / 4)) es))).
        + assert (G : forall r k tl, skipn (4 * (n / 4) + k) es = tl -> length tl = r -> k + r = n mod 4 ->
            writes (map (fun i => txt "%10i%10i" [at_ (ix d1 "entity_type_code") (Z.of_nat (i * 4)); at_ (ix d1 "entity_tag") (Z.of_nat (i * 4))]) (seq k r)) (zline (flat_map cells2 tl))).
          { induction r as [|r IH]; intros k tl Ht Hl Hk.
            - destruct tl; [|discriminate]. constructor.
            - destruct tl as [|e tl]; [discriminate|]. cbn [seq map flat_map].
              assert (Ne : nth_error es (k * 4) = Some e).
              { rewrite W5 by (fold n; lia). fold n. rewrite <- (firstn_skipn (4 * (n / 4) + k) es) at 1. rewrite Ht.
                rewrite nth_error_app2 by (rewrite firstn_length; lia). rewrite firstn_length, Nat.min_l, Nat.sub_diag by (fold n; lia). reflexivity. }
              destruct (Gi _ _ Ne) as [G1 G2]. unfold zline. rewrite map_app, cells_text_app. unfold txt at 1.
              rewrite (pct_cells _ _ (map (CI 10) (cells2 e))); [|reflexivity|cbn [cells2 map cells_args]; auto].
              constructor. apply IH; [|cbn in Hl; lia|lia].
              replace (4 * (n / 4) + S k) with ((4 * (n / 4) + k) + 1) by lia. rewrite <- skipn_skipn_add, Ht. reflexivity. }
          apply (G (n mod 4) 0); [rewrite Nat.add_0_r; reflexivity| |reflexivity].
          rewrite skipn_length. fold n. lia.
        + apply writes_app; [|exact end_writes].
          instantiate (1 := if Nat.eqb (n mod 4) 0 then [] else [LF]). destruct (Nat.eqb (n mod 4) 0); [constructor|].
          apply writes_one. reflexivity. }
    unfold group_lines. fold n.
    unfold ent_rows, chunks. fold n. rewrite (unlines_head _ _ (map _ (map _ _))). rewrite mod_rows. rewrite seq_app, !map_app, unlines_app, (map_map _ _ (seq 0 _)).
    cbn [plus].
    assert (Et : unlines (map (fun r => zline (flat_map cells2 r)) (map (chunk 4 es) (seq (n / 4) (if Nat.eqb (n mod 4) 0 then 0 else 1)))) =
      zline (flat_map cells2 (skipn (4 * (n / 4)) es)) ++ (if Nat.eqb (n mod 4) 0 then [] else [LF])).
    { destruct (Nat.eqb_spec (n mod 4) 0) as [E0|E0].
      - rewrite skipn_all2 by (fold n; lia). reflexivity.
      - cbn [seq map]. rewrite unlines_one. unfold chunk. rewrite firstn_all2 by (rewrite skipn_length; fold n; lia). reflexivity. }
    rewrite Et. rewrite <- !app_assoc. reflexivity.
  - intros block _ Hb. unfold extract_set. rewrite Hb. cbn [Z.eqb Pos.eqb]. unfold extract2429, extract2429_fuel.
    rewrite split_text by assumption. cbv beta iota zeta.
    destruct (group_at _ cells2 4 g es [] top2429 [] ltac:(lia) (or_introl eq_refl) W1 W2 Hen) as ((g1 & G1 & G2) & G3 & G4 & G5).
    rewrite (map_ext (endl []) (fun l => l)) in * by (intro; apply app_nil_r). rewrite map_id, app_nil_r in *.
    match goal with |- context [loop2429 ?f ?x _ _] => change (loop2429 f x 2 []) with (loop2429 f (top2429 ++ group_lines cells2 4 g es) 2 []);
      assert (Hf : exists f2, f = S (S f2)) by (exists (f - 2); cbn [length]; lia) end.
    destruct Hf as [f2 ->]. set (lines := top2429 ++ group_lines cells2 4 g es) in *. cbn [loop2429].
    change (Z.of_nat (length top2429)) with 2%Z in *.
    set (nr := length (ent_rows cells2 4 es)).
    match goal with |- context [@length ?T lines] => assert (Hll : @length T lines = 4 + nr) by reflexivity end.
    assert (Hrow : 0 < nr).
    { unfold nr, ent_rows. rewrite map_length, chunks_length. assert (Hu := rows_up_le 4 (length es) ltac:(lia)). destruct es; [congruence|]. cbn [length] in *. lia. }
    rewrite Hll. rewrite (proj2 (Z.ltb_lt _ _)) by lia.
    destruct (py_nth lines 2) as [l0|]; [|discriminate]. cbn [rbind] in G1 |- *. rewrite G1. cbn [rbind].
    destruct (py_nth lines (2 + 1)) as [l1|]; [|discriminate]. cbn [rbind] in G3 |- *. rewrite G3. cbn [rbind].
    rewrite G2. rewrite group_out_count by apply W1. cbn [rbind]. change (Z.of_nat 4) with 4%Z in *. rewrite G4. cbn [rbind]. rewrite G5.
    assert (E1 : every 0 2 (flat_map cells2 es) = map fst es) by (apply every_table1; [lia|intro e; split; reflexivity]).
    assert (E2 : every 1 2 (flat_map cells2 es) = map snd es) by (apply every_table1; [lia|intro e; split; reflexivity]).
    rewrite E1, E2. change (length (group_lines cells2 4 g es)) with (2 + nr). cbn [length].
    rewrite (proj2 (Z.ltb_ge _ _)) by lia. cbn [app rbind try_any].
    unfold read2429, group_out. destruct W1 as (_ & _ & W1 & _).
    destruct (p_sets g) as [|a [|b [|c0 [|d0 [|e [|f [|? ?]]]]]]]; try discriminate. reflexivity.
Qed.
