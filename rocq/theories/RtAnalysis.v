(** Storing and reading back analysis data (data set 2414). *)
From Verif Require Import PyBase PyNum PyVal Utf8 Tools DsNodes DsHeaders DsGroups Ds55 Ds2414 Uff Facts IntFacts FloatFacts DecFacts FloatText FloatExact CplxFacts DictFacts
  Scan Container Append ContainerThms Utf8Facts Lines Stored Cells Rows RtNodes RtCs RtHeads RtElems RtGroups RtNodal.
From Coq Require Import Lia.
Open Scope nat_scope.
Open Scope list_scope.

(** Data at the nodes of an element: element number, expansion code, number of
    nodes, values per node, and the lines of values. *)
Record on_elem := { o_num : Z; o_exp : Z; o_nodes : Z; o_per : Z; o_rows : list (list float) }.
(** The data: frequency response at nodes (analysis type 5; real and imaginary
    parts in turn), values at nodes (location 1), on elements (2), at the nodes
    of elements (3), none (other locations). *)
Inductive ana_body :=
| AFreq (rows : list (Z * list float))
| ANodes (rows : list (Z * list float))
| AElems (rows : list (Z * list float))
| AOn (els : list on_elem)
| ANone.
Record ana := { n_label : Z; n_name : str; n_loc : Z; n_ids : list str;
  n_model : Z; n_an : Z; n_dc : Z; n_rt : Z; n_dt : Z; n_nv : Z;
  n_r10 : list Z; n_r11 : list Z; n_r12 : list float; n_r13 : list float; n_body : ana_body }.
Definition is_freq (b : ana_body) : bool := match b with AFreq _ => true | _ => false end.
(** The names of the fields of records 9 to 13, in the order of the records: of a
    frequency response, and of the other sets. *)
Definition keys9 : list string :=
  ["model_type"; "analysis_type"; "data_characteristic"; "result_type"; "data_type";
   "number_of_data_values_for_the_data_component"]%string.
Definition keys10 : list string :=
  ["design_set_id"; "iteration_number"; "solution_set_id"; "boundary_condition"; "load_set"; "mode_number";
   "time_step_number"; "frequency_number"]%string.
Definition keys11 : list string :=
  ["creation_option"; "number_retained"]%string.
Definition keys12 : list string :=
  ["time"; "frequency"; "eigenvalue"; "modal_mass"; "viscous_damping"; "hysteretic_damping"]%string.
Definition keys13 : list string :=
  ["real_part_eigenvalue"; "imaginary_part_eigenvalue"; "real_part_of_modal_A_or_modal_mass";
   "imaginary_part_of_modal_A_or_modal_mass"; "real_part_of_modal_B_or_modal_mass";
   "imaginary_part_of_modal_B_or_modal_mass"]%string.
Definition other10 : list string :=
  ["record10_field1"; "record10_field2"; "record10_field3"; "record10_field4"; "record10_field5"; "record10_field6"; "record10_field7"; "record10_field8"]%string.
Definition other11 : list string :=
  ["record11_field1"; "record11_field2"; "record11_field3"; "record11_field4"; "record11_field5"; "record11_field6"; "record11_field7"; "record11_field8"]%string.
Definition other12 : list string :=
  ["record12_field1"; "record12_field2"; "record12_field3"; "record12_field4"; "record12_field5"; "record12_field6"]%string.
Definition other13 : list string :=
  ["record13_field1"; "record13_field2"; "record13_field3"; "record13_field4"; "record13_field5"; "record13_field6"]%string.
Definition k10 (b : ana_body) : list string := if is_freq b then keys10 else other10.
Definition k11 (b : ana_body) : list string := if is_freq b then keys11 else other11.
Definition k12 (b : ana_body) : list string := if is_freq b then keys12 else other12.
Definition k13 (b : ana_body) : list string := if is_freq b then keys13 else other13.

(** A numpy array of such values. *)
Definition arr_of {A} (P : pyval -> A -> Prop) (v : pyval) (l : list A) : Prop := (exists dt vs, v = VArr dt vs) /\ seq_of P v l.
(** A field of records 10 to 13: required for frequency responses, else zero by default. *)
Definition field {A} (P : pyval -> A -> Prop) (b : bool) (d : dict) (k : string) (a dflt : A) : Prop :=
  if b then has P d k a else has_or P d k a dflt.
Definition repr_body (d : dict) (nv : Z) (b : ana_body) : Prop :=
  match b with
  | AFreq rows => has (arr_of as_intc) d "node_nums" (map fst rows) /\ has (seq_of as_cplx) d "x" (colc 0 rows) /\
      ((2 <= nv)%Z -> has (seq_of as_cplx) d "y" (colc 1 rows)) /\ ((3 <= nv)%Z -> has (seq_of as_cplx) d "z" (colc 2 rows))
  | ANodes rows => has (arr_of as_int) d "node_nums" (map fst rows) /\ has (seq_of (seq_of as_flt)) d "data_at_node" (map snd rows)
  | AElems rows => has (arr_of as_int) d "element_nums" (map fst rows) /\ has (seq_of (seq_of as_flt)) d "data_at_element" (map snd rows)
  | AOn els => has (arr_of as_int) d "element_nums" (map o_num els) /\ has (seq_of as_int) d "IEXP" (map o_exp els) /\
      has (seq_of as_int) d "number_of_nodes" (map o_nodes els) /\ has (seq_of as_int) d "number_of_values_per_node" (map o_per els) /\
      has (seq_of (seq_of (seq_of as_flt))) d "data_at_nodes_on_element" (map o_rows els)
  | ANone => True
  end.
Definition repr2414 (d : dict) (a : ana) : Prop :=
  dget d (KS "type") = Some (VInt 2414) /\ dget d (KS "data") = None /\
  has as_int d "analysis_dataset_label" (n_label a) /\ has as_txt d "analysis_dataset_name" (n_name a) /\
  has is_num d "dataset_location" (n_loc a) /\ Forall2 (fun k s => has as_txt d k s) id_keys (n_ids a) /\
  has as_int d "model_type" (n_model a) /\ has is_num d "analysis_type" (n_an a) /\ has as_int d "data_characteristic" (n_dc a) /\
  has as_int d "result_type" (n_rt a) /\ has as_int d "data_type" (n_dt a) /\
  has is_num d "number_of_data_values_for_the_data_component" (n_nv a) /\
  Forall2 (fun k z => field as_int (is_freq (n_body a)) d k z 0%Z) (k10 (n_body a)) (n_r10 a) /\
  Forall2 (fun k z => field as_int (is_freq (n_body a)) d k z 0%Z) (k11 (n_body a)) (n_r11 a) /\
  Forall2 (fun k z => field as_flt (is_freq (n_body a)) d k z f_zero) (k12 (n_body a)) (n_r12 a) /\
  Forall2 (fun k z => field as_flt (is_freq (n_body a)) d k z f_zero) (k13 (n_body a)) (n_r13 a) /\
  repr_body d (n_nv a) (n_body a).

(** Records 12 and 13 are written without a width and read in columns of 13:
    only reals printed in 11 characters (not negative, exponent of two digits)
    keep the columns.  Data is split at blanks: at most 12 characters. *)
Definition w11 (f : float) : Prop := f_valid f = true /\ length (fmt_e false 5 f) = 11.
Definition w12 (f : float) : Prop := f_valid f = true /\ length (fmt_e false 5 f) < 13.
Definition lines_of (el : on_elem) : Z := if (o_exp el =? 1)%Z then (o_nodes el * ceil_div (o_per el) 6)%Z else ceil_div (o_per el) 6.
Definition wf_body (nv : Z) (b : ana_body) : Prop :=
  match b with
  | AFreq rows => (1 <= nv <= 3)%Z /\ Forall (fun w => fits 10 (fst w) /\ fst w <> (-1)%Z /\ length (snd w) = 2 * Z.to_nat nv /\
      Forall (fun f => w12 f /\ f_finite f = true) (snd w)) rows
  | ANodes rows => rows <> [] /\ Forall (fun w => fits 10 (fst w) /\ fst w <> (-1)%Z /\ Forall w12 (snd w)) rows
  | AElems rows => rows <> [] /\ Forall (fun w => fits 10 (fst w) /\ fits 9 (Z.of_nat (length (snd w))) /\ Forall w12 (snd w)) rows
  | AOn els => Forall (fun el => fits 10 (o_num el) /\ Forall (fits 9) [o_exp el; o_nodes el; o_per el] /\ o_per el <> (-1)%Z /\
      lines_of el = Z.of_nat (length (o_rows el)) /\ Forall (Forall w12) (o_rows el)) els
  | ANone => True
  end.
(** Which location and analysis type select the kind of data. *)
Definition kind_ok (a : ana) : Prop :=
  match n_body a with
  | AFreq _ => n_an a = 5%Z
  | ANodes _ => n_an a <> 5%Z /\ n_loc a = 1%Z
  | AElems _ => n_an a <> 5%Z /\ n_loc a = 2%Z
  | AOn _ => n_an a <> 5%Z /\ n_loc a = 3%Z
  | ANone => n_an a <> 5%Z /\ ~ In (n_loc a) [1; 2; 3; 5]%Z
  end.
Definition wf2414 (a : ana) : Prop :=
  text_ok (n_name a) /\ Forall text_ok (n_ids a) /\ Forall (fits 10) [n_label a; n_loc a; n_model a; n_an a; n_dc a; n_rt a; n_dt a; n_nv a] /\
  ~ In (-1)%Z [n_label a; n_loc a; n_nv a] /\ Forall (fits 10) (n_r10 a) /\ last (n_r10 a) 0%Z <> (-1)%Z /\
  Forall (fits 10) (n_r11 a) /\ last (n_r11 a) 0%Z <> (-1)%Z /\ Forall w11 (n_r12 a) /\ Forall w11 (n_r13 a) /\
  kind_ok a /\ wf_body (n_nv a) (n_body a).

(** What writing alone needs: reals of any length. *)
Definition wfw_body (nv : Z) (b : ana_body) : Prop :=
  match b with
  | AFreq rows => (1 <= nv <= 3)%Z /\ Forall (fun w => fits 10 (fst w) /\ fst w <> (-1)%Z /\ length (snd w) = 2 * Z.to_nat nv /\ Forall okf (snd w)) rows
  | ANodes rows => Forall (fun w => fits 10 (fst w) /\ fst w <> (-1)%Z /\ Forall okf (snd w)) rows
  | AElems rows => Forall (fun w => fits 10 (fst w) /\ fits 9 (Z.of_nat (length (snd w))) /\ Forall okf (snd w)) rows
  | AOn els => Forall (fun el => fits 10 (o_num el) /\ Forall (fits 9) [o_exp el; o_nodes el; o_per el] /\ o_per el <> (-1)%Z /\
      Forall (Forall okf) (o_rows el)) els
  | ANone => True
  end.
Definition wfw2414 (a : ana) : Prop :=
  text_ok (n_name a) /\ Forall text_ok (n_ids a) /\ Forall (fits 10) [n_label a; n_loc a; n_model a; n_an a; n_dc a; n_rt a; n_dt a; n_nv a] /\
  ~ In (-1)%Z [n_label a; n_loc a; n_nv a] /\ Forall (fits 10) (n_r10 a) /\ last (n_r10 a) 0%Z <> (-1)%Z /\
  Forall (fits 10) (n_r11 a) /\ last (n_r11 a) 0%Z <> (-1)%Z /\ Forall okf (n_r12 a) /\ Forall okf (n_r13 a) /\
  kind_ok a /\ wfw_body (n_nv a) (n_body a).

Definition frow (l : list float) : pyval := vfloats (map r6f l).
Definition out_body (nv dt : Z) (b : ana_body) : dict :=
  match b with
  | AFreq rows => if (dt =? 5)%Z then
        [(KS "node_nums", vints (map fst rows)); (KS "x", cplx_out 0 rows)] ++
        (if (2 <=? nv)%Z then [(KS "y", cplx_out 1 rows)] else []) ++ (if (3 <=? nv)%Z then [(KS "z", cplx_out 2 rows)] else [])
      else []
  | ANodes rows => [(KS "node_nums", vints (map fst rows)); (KS "data_at_node", VList (map (fun w => frow (snd w)) rows))]
  | AElems rows => [(KS "element_nums", vints (map fst rows)); (KS "NDVAL", vints (map (fun w => Z.of_nat (length (snd w))) rows));
      (KS "data_at_element", VList (map (fun w => frow (snd w)) rows))]
  | AOn els => [(KS "element_nums", vints (map o_num els)); (KS "IEXP", vints (map o_exp els)); (KS "number_of_nodes", vints (map o_nodes els));
      (KS "number_of_values_per_node", vints (map o_per els));
      (KS "data_at_nodes_on_element", VList (map (fun el => VList (map frow (o_rows el))) els))]
  | ANone => []
  end.
Definition fields_out {A} (ks : list string) (f : A -> pyval) (l : list A) : dict := combine (map KS ks) (map f l).
Definition pre2414 (a : ana) : dict :=
  [(KS "type", VInt 2414); (KS "analysis_dataset_label", VInt (n_label a)); (KS "analysis_dataset_name", VStr (strip (firstn 80 (n_name a))));
   (KS "dataset_location", VInt (n_loc a))] ++ fields_out id_keys (fun s => VStr (strip (firstn 80 s))) (n_ids a) ++
  fields_out keys9 VInt [n_model a; n_an a; n_dc a; n_rt a; n_dt a; n_nv a].
Definition recs_out (a : ana) : dict :=
  fields_out (k10 (n_body a)) VInt (n_r10 a) ++ fields_out (k11 (n_body a)) VInt (n_r11 a) ++
  fields_out (k12 (n_body a)) (fun f => VFloat (r6f f)) (n_r12 a) ++ fields_out (k13 (n_body a)) (fun f => VFloat (r6f f)) (n_r13 a).
Definition read2414 (a : ana) : dict := pre2414 a ++ recs_out a ++ out_body (n_nv a) (n_dt a) (n_body a).

(* ------------------------------------------------------------------ *)
(** ** Lines *)

Definition el_head (w : Z * list float) : list Z := [fst w; Z.of_nat (length (snd w))].
Definition el_lines (w : Z * list float) : list str := [zline (el_head w); cells_text (fcells (snd w))].
Definition on_head (el : on_elem) : list Z := [o_num el; o_exp el; o_nodes el; o_per el].
Definition on_lines (el : on_elem) : list str := zline (on_head el) :: map (fun l => cells_text (fcells l)) (o_rows el).
Definition body_lines (b : ana_body) : list str :=
  match b with
  | AFreq rows | ANodes rows => flat_map row_lines rows
  | AElems rows => flat_map el_lines rows
  | AOn els => flat_map on_lines els
  | ANone => []
  end.
Definition hdr2414 : str := lit "  2414".
Definition head9 (a : ana) : list Z := [n_model a; n_an a; n_dc a; n_rt a; n_dt a; n_nv a].
Definition head_lines (a : ana) : list str :=
  [zline [n_label a]; ljust 80 (n_name a); zline [n_loc a]] ++ map (ljust 80) (n_ids a) ++
  [zline (head9 a); zline (n_r10 a); zline (n_r11 a); cells_text (fcells (n_r12 a)); cells_text (fcells (n_r13 a))].
Definition lines2414 (a : ana) : list str := head_lines a ++ body_lines (n_body a).
(** The first lines, with [x] and [y] for records 12 and 13. *)
Definition head_with (a : ana) (x y : str) : list str :=
  [zline [n_label a]; ljust 80 (n_name a); zline [n_loc a]] ++ map (ljust 80) (n_ids a) ++
  [zline (head9 a); zline (n_r10 a); zline (n_r11 a); x; y].
(** Reals after two blanks. *)
Definition gap_cells (l : list float) : list cell := flat_map (fun f => [CL blank; CL blank; CE 0 5 f]) l.
(** Records 12 and 13 for reals of any length. *)
Definition gline (l : list float) : str := cells_text (gap_cells l).
Definition headw_lines (a : ana) : list str := head_with a (gline (n_r12 a)) (gline (n_r13 a)).
Definition linesw2414 (a : ana) : list str := headw_lines a ++ body_lines (n_body a).

Lemma zline10 : forall l, l <> [] -> Forall (fits 10) l -> last l 0%Z <> (-1)%Z -> Forall width_ok (map (CI 10) l) /\ okline (zline l).
Proof.
  intros l Hn H Hl. destruct (exists_last Hn) as (q & z & ->). rewrite last_last in Hl. exact (ints_ok q z H Hl).
Qed.
Lemma w11_okf : forall l, Forall w11 l -> Forall okf l.
Proof. intros l H. eapply Forall_impl; [|exact H]. intros f [Hf _]. exact Hf. Qed.
Lemma w12_okf : forall l, Forall w12 l -> Forall okf l.
Proof. intros l H. eapply Forall_impl; [|exact H]. intros f [Hf _]. exact Hf. Qed.
Lemma frow_ok : forall l, Forall okf l -> okline (cells_text (fcells l)).
Proof.
  intros l H. destruct l as [|f l].
  - apply okline_plain; [apply plain_ascii; reflexivity| |cbn; lia]. intros [p Hq]. apply (f_equal (@length N)) in Hq. rewrite app_length in Hq. cbn in Hq. lia.
  - apply fcells_ok; [discriminate|assumption].
Qed.
Lemma fits_9_10' : forall z, fits 9 z -> fits 10 z.
Proof. intros z H. unfold fits in *. cbn in *. lia. Qed.
Lemma wf_wfw_body : forall nv b, wf_body nv b -> wfw_body nv b.
Proof.
  intros nv b H. destruct b as [rows|rows|rows|els|]; cbn [wf_body wfw_body] in *; try exact H; destruct H as [H0 H] || idtac; try (split; [exact H0|]).
  - eapply Forall_impl; [|exact H]. intros w (H1 & H2 & H3 & H4). refine (conj H1 (conj H2 (conj H3 _))). eapply Forall_impl; [|exact H4]. intros f [[Hf _] _]. exact Hf.
  - eapply Forall_impl; [|exact H]. intros w (H1 & H2 & H3). exact (conj H1 (conj H2 (w12_okf _ H3))).
  - eapply Forall_impl; [|exact H]. intros w (H1 & H2 & H3). exact (conj H1 (conj H2 (w12_okf _ H3))).
  - eapply Forall_impl; [|exact H]. intros el (H1 & H2 & H3 & _ & H4). refine (conj H1 (conj H2 (conj H3 _))). eapply Forall_impl; [|exact H4]. intros l. apply w12_okf.
Qed.
Lemma wf_wfw : forall a, wf2414 a -> wfw2414 a.
Proof.
  intros a (W1 & W2 & W3 & W4 & W5 & W6 & W7 & W8 & W9 & W10 & W11 & W12). exact (conj W1 (conj W2 (conj W3 (conj W4 (conj W5 (conj W6 (conj W7 (conj W8
    (conj (w11_okf _ W9) (conj (w11_okf _ W10) (conj W11 (wf_wfw_body _ _ W12)))))))))))).
Qed.
Lemma gap_text : forall l, Forall w11 l -> cells_text (gap_cells l) = cells_text (fcells l).
Proof.
  intros l H. induction H as [|f l [_ Hf] _ IH]; [reflexivity|]. cbn [gap_cells flat_map app fcells map]. rewrite !cells_text_cons. fold (gap_cells l). fold (fcells l).
  rewrite IH. cbn [cell_text app]. unfold rjust. rewrite Hf. reflexivity.
Qed.
Lemma headw_eq : forall a, wf2414 a -> headw_lines a = head_lines a.
Proof.
  intros a (_ & _ & _ & _ & _ & _ & _ & _ & W9 & W10 & _). unfold headw_lines, head_with, gline. rewrite !gap_text by assumption. reflexivity.
Qed.
Lemma body_lines_ok : forall nv b, wfw_body nv b -> Forall okline (body_lines b).
Proof.
  intros nv b H. destruct b as [rows|rows|rows|els|]; cbn [wfw_body body_lines] in *.
  - destruct H as [_ H]. apply Forall_fm. eapply Forall_impl; [|exact H]. intros [z l] (H1 & H2 & _ & H3). cbn [fst snd] in *.
    unfold row_lines. cbn [fst snd]. constructor; [apply (ints_ok [] z); [constructor; [assumption|constructor]|assumption]|].
    constructor; [|constructor]. apply frow_ok. exact H3.
  - apply Forall_fm. eapply Forall_impl; [|exact H]. intros [z l] (H1 & H2 & H3). cbn [fst snd] in *.
    unfold row_lines. cbn [fst snd]. constructor; [apply (ints_ok [] z); [constructor; [assumption|constructor]|assumption]|].
    constructor; [|constructor]. apply frow_ok. exact H3.
  - apply Forall_fm. eapply Forall_impl; [|exact H]. intros [z l] (H1 & H2 & H3). cbn [fst snd] in *.
    unfold el_lines, el_head. cbn [fst snd]. constructor; [|constructor; [|constructor]].
    + apply zline_ok; [assumption|constructor; [assumption|constructor]|]. cbn [last]. lia.
    + apply frow_ok. exact H3.
  - apply Forall_fm. eapply Forall_impl; [|exact H]. intros el (H1 & H2 & H3 & H4). unfold on_lines. constructor.
    + unfold on_head. apply zline_ok; [assumption|assumption|exact H3].
    + rewrite Forall_map. eapply Forall_impl; [|exact H4]. intros l Hl. apply frow_ok. exact Hl.
  - constructor.
Qed.

Lemma lens : forall d a, repr2414 d a -> length (n_r10 a) = 8 /\ length (n_r11 a) = (if is_freq (n_body a) then 2 else 8) /\
  length (n_r12 a) = 6 /\ length (n_r13 a) = 6 /\ length (n_ids a) = 5.
Proof.
  intros d a (_ & _ & _ & _ & _ & R0 & _ & _ & _ & _ & _ & _ & R1 & R2 & R3 & R4 & _).
  apply Forall2_len in R0, R1, R2, R3, R4. unfold k10, k11, k12, k13 in *. destruct (is_freq (n_body a)); cbn in *; auto.
Qed.
Definition gtext (f : float) : str := blank :: blank :: fmt_e false 5 f.
Lemma gline_segs : forall l, gline l = concat (map gtext l).
Proof.
  intro l. unfold gline, gap_cells. induction l as [|f l IH]; [reflexivity|]. cbn [flat_map app map concat gtext]. rewrite !cells_text_cons, IH. reflexivity.
Qed.
Lemma gline_ok : forall l, length l = 6 -> Forall okf l -> okline (gline l).
Proof.
  intros l Hl H. assert (Hp : plain (gline l)).
  { rewrite gline_segs. apply plain_concat. rewrite Forall_map, Forall_forall. intros f _. apply (plain_app [blank; blank]); [apply plain_ascii; reflexivity|apply plain_fmt]. }
  split; [apply Hp|]. split; [|apply Hp]. apply tags_gap.
  - apply no_lb_str_bytes. apply Hp.
  - destruct (exists_last (l := l)) as (q & f & ->); [intro Q; rewrite Q in Hl; discriminate|]. rewrite gline_segs, map_app, concat_app. cbn [map concat]. rewrite app_nil_r.
    unfold gtext at 2. intro Q. change (blank :: blank :: ?x) with ([blank] ++ blank :: x) in Q. rewrite app_assoc in Q. apply ends_tag_token in Q; [|apply fmt_e_nonws].
    assert (X := fmt_e_expch false 5 f). rewrite Q in X. discriminate.
  - rewrite gline_segs. apply gap_concat. rewrite Forall_map. eapply Forall_impl; [|exact H]. intros f Hf. split.
    + cbn [gtext length]. assert (L := fmt_e_length false 5 f ltac:(lia) Hf). lia.
    + destruct (nonws_last _ (fmt_e_nonws false 5 f)) as (p & c & E & Hc). exists (blank :: blank :: p), c. split; [unfold gtext; rewrite E; reflexivity|exact Hc].
Qed.
Lemma headw_ok : forall d a, repr2414 d a -> wfw2414 a ->
  (Forall width_ok (map (CI 10) [n_label a]) /\ Forall width_ok (map (CI 10) [n_loc a]) /\ Forall width_ok (map (CI 10) (head9 a)) /\
   Forall width_ok (map (CI 10) (n_r10 a)) /\ Forall width_ok (map (CI 10) (n_r11 a))) /\
  Forall okline (headw_lines a).
Proof.
  intros d a R W. destruct (lens d a R) as (L1 & L2 & L3 & L4 & L5). destruct W as (W1 & W2 & W3 & W4 & W5 & W6 & W7 & W8 & W9 & W10 & _ & _).
  repeat match goal with H : Forall (fits 10) (_ :: _) |- _ => inversion H; subst; clear H end. cbn [In] in W4.
  assert (A1 := zline10 [n_label a] ltac:(discriminate) ltac:(auto) ltac:(cbn [last]; intro Q; apply W4; auto)).
  assert (A2 := zline10 [n_loc a] ltac:(discriminate) ltac:(auto) ltac:(cbn [last]; intro Q; apply W4; auto)).
  assert (A3 := zline10 (head9 a) ltac:(discriminate) ltac:(unfold head9; auto 10) ltac:(cbn [last head9]; intro Q; apply W4; auto)).
  assert (A4 := zline10 (n_r10 a) ltac:(intro Q; rewrite Q in L1; discriminate) W5 W6).
  assert (A5 := zline10 (n_r11 a) ltac:(intro Q; rewrite Q in L2; destruct (is_freq (n_body a)); discriminate) W7 W8).
  destruct A1, A2, A3, A4, A5. split; [auto 10|].
  unfold headw_lines, head_with. apply Forall_app. split; [constructor; [assumption|]; constructor; [apply text_ok_line; assumption|]; constructor; [assumption|constructor]|].
  apply Forall_app. split; [rewrite Forall_map; eapply Forall_impl; [|exact W2]; intros; apply text_ok_line; assumption|].
  repeat (constructor; [auto using gline_ok|]). constructor.
Qed.
Lemma head_ok2414 : forall d a, repr2414 d a -> wf2414 a ->
  (Forall width_ok (map (CI 10) [n_label a]) /\ Forall width_ok (map (CI 10) [n_loc a]) /\ Forall width_ok (map (CI 10) (head9 a)) /\
   Forall width_ok (map (CI 10) (n_r10 a)) /\ Forall width_ok (map (CI 10) (n_r11 a)) /\ Forall width_ok (fcells (n_r12 a)) /\ Forall width_ok (fcells (n_r13 a))) /\
  Forall okline (head_lines a).
Proof.
  intros d a R W. destruct (headw_ok d a R (wf_wfw a W)) as [(V1 & V2 & V3 & V4 & V5) Hh]. rewrite headw_eq in Hh by assumption.
  assert (F1 := fcells_width _ (w11_okf (n_r12 a) ltac:(apply W))). assert (F2 := fcells_width _ (w11_okf (n_r13 a) ltac:(apply W))). auto 10.
Qed.

(* ------------------------------------------------------------------ *)
(** ** Writing *)

Lemma int_specs : forall w l, map cell_spec (map (CI w) l ++ [CL LF]) = repeat (FInt w) (length l) ++ [FLit LF].
Proof. intros w l. induction l as [|z l IH]; [reflexivity|]. cbn [map app length repeat]. rewrite IH. reflexivity. Qed.
Lemma ints_line : forall d ks l f rest t, Forall2 (fun k z => has as_int d k z) ks l -> parse_fmt SNorm f = repeat (FInt 10) (length ks) ++ [FLit LF] ->
  writes rest t -> writes (txt f (map (ix d) ks) :: rest) ((zline l ++ [LF]) ++ t).
Proof.
  intros d ks l f rest t H Hf Hr. unfold zline. apply writes_line; [|rewrite <- (app_nil_r (map (ix d) ks)); apply (cells_args_list _ as_int (CI 10)); [intros; apply ca_int; assumption|assumption|exact Logic.I]|assumption].
  rewrite int_specs, Hf, (Forall2_len _ _ _ _ _ H). reflexivity.
Qed.
Lemma gap_args : forall d ks l, Forall2 (fun k z => has as_flt d k z) ks l -> cells_args (gap_cells l ++ [CL LF]) (map (ix d) ks).
Proof.
  intros d ks l H. induction H as [|k f ks l Hk _ IH]; [exact Logic.I|]. cbn [gap_cells flat_map app map cells_args]. split; [apply has_gf; assumption|exact IH].
Qed.
Lemma gap_specs : forall l, length l = 6 -> parse_fmt SNorm fmt6e = map cell_spec (gap_cells l ++ [CL LF]).
Proof. intros l H. destruct l as [|a [|b [|c [|d [|e [|f [|? ?]]]]]]]; try discriminate. reflexivity. Qed.
Lemma reals_line : forall d ks l rest t, Forall2 (fun k z => has as_flt d k z) ks l -> length l = 6 ->
  writes rest t -> writes (txt fmt6e (map (ix d) ks) :: rest) ((gline l ++ [LF]) ++ t).
Proof.
  intros d ks l rest t H Hl Hr. apply writes_line; [apply gap_specs; assumption|apply gap_args; assumption|assumption].
Qed.

Lemma arr_seq : forall A (P : pyval -> A -> Prop) d k l, has (arr_of P) d k l -> has (seq_of P) d k l.
Proof. intros A P d k l (v & Hv & _ & Hs). exists v. auto. Qed.
Lemma arr_shape : forall A (P : pyval -> A -> Prop) d k l, has (arr_of P) d k l -> (do v <- ix d k ;; shape0 v) = Ok (length l).
Proof.
  intros A P d k l H. destruct (has_get _ _ _ _ _ H) as (v & -> & (dt & vs & ->) & xs & Hx & H2). cbn [rbind shape0]. cbn [to_seq] in Hx. injection Hx as <-.
  rewrite (Forall2_len _ _ _ _ _ H2). reflexivity.
Qed.
Lemma shape_writes : forall A B (P : pyval -> B -> Prop) d k (rows : list A) (g : A -> B) body (lines : A -> list str),
  has (arr_of P) d k (map g rows) -> (forall i a, nth_error rows i = Some a -> writes (body (Z.of_nat i)) (unlines (lines a))) ->
  writes (for_shape d k body) (unlines (flat_map lines rows)).
Proof.
  intros A B P d k rows g body lines H Hb. unfold for_shape. rewrite (arr_shape _ _ _ _ _ H), map_length. apply writes_rows. assumption.
Qed.
Lemma row13_writes : forall r v l, r = Ok v -> seq_of as_flt v l -> writes (row13 r) (unlines [cells_text (fcells l)]).
Proof.
  intros r v l -> (vs & Hs & H2). unfold row13. cbn [rbind]. rewrite Hs. rewrite unlines_one. unfold fcells. clear Hs.
  induction H2 as [|x f vs l Hx _ IH]; cbn [map app].
  - apply writes_one. reflexivity.
  - rewrite cells_text_cons, <- app_assoc. apply writes_consr; [|exact IH].
    rewrite (pct_cells _ _ [CE 13 5 f]); [rewrite cells_one; reflexivity|reflexivity|]. cbn [cells_args]. split; [exact Hx|exact Logic.I].
Qed.
Lemma cplx_np : forall v p, as_cplx v p -> gf (np_real (Ok v)) (fst p) /\ gf (np_imag (Ok v)) (snd p).
Proof.
  intros v p [H1 H2]. destruct v; try discriminate H1; split; assumption.
Qed.
Lemma cplx_at : forall d k l i p, has (seq_of as_cplx) d k l -> nth_error l i = Some p ->
  gf (np_real (at_ (ix d k) (Z.of_nat i))) (fst p) /\ gf (np_imag (at_ (ix d k) (Z.of_nat i))) (snd p).
Proof. intros d k l i p H Hi. destruct (has_at _ _ _ _ _ _ _ H Hi) as (v & -> & Hp). apply cplx_np. assumption. Qed.

Lemma freq_writes : forall d nv rows i w, has is_num d "number_of_data_values_for_the_data_component" nv -> repr_body d nv (AFreq rows) ->
  nth_error rows i = Some w -> (1 <= nv <= 3)%Z -> length (snd w) = 2 * Z.to_nat nv -> writes (node2414 d (Z.of_nat i)) (unlines (row_lines w)).
Proof.
  intros d nv rows i [z l] Hn (R1 & R2 & R3 & R4) Hi Hv Hl. cbn [snd] in Hl. unfold node2414, row_lines. cbn [fst snd].
  apply arr_seq in R1. destruct (has_at _ _ _ _ _ _ _ R1 (map_nth_error fst i rows Hi)) as (x & Ex & Px). cbn [fst] in Px.
  destruct (has_get _ _ _ _ _ Hn) as (u & -> & _ & Hq). rewrite !Hq.
  eapply writes_eq.
  { apply (writes_line _ _ [CI 10 z]); [reflexivity|cbn [cells_args app]; split; [apply (int_arg_gi _ x); assumption|exact Logic.I]|].
    destruct (cplx_at _ _ _ _ _ R2 (nth_colc 0 _ _ _ Hi)) as [A1 A2].
    assert (nv = 1 \/ nv = 2 \/ nv = 3)%Z as [-> |[-> | ->]] by lia; cbn [Z.eqb Pos.eqb].
    - destruct l as [|a [|b [|? ?]]]; try discriminate Hl.
      apply (writes_line _ _ (fcells [a; b]) _ []); [reflexivity| |constructor]. cbn [fcells map cells_args app]. auto.
    - destruct (cplx_at _ _ _ _ _ (R3 ltac:(lia)) (nth_colc 1 _ _ _ Hi)) as [A3 A4]. destruct l as [|a [|b [|c [|e [|? ?]]]]]; try discriminate Hl.
      apply (writes_line _ _ (fcells [a; b; c; e]) _ []); [reflexivity| |constructor]. cbn [fcells map cells_args app]. auto 10.
    - destruct (cplx_at _ _ _ _ _ (R3 ltac:(lia)) (nth_colc 1 _ _ _ Hi)) as [A3 A4]. destruct (cplx_at _ _ _ _ _ (R4 ltac:(lia)) (nth_colc 2 _ _ _ Hi)) as [A5 A6].
      destruct l as [|a [|b [|c [|e [|f [|g [|? ?]]]]]]]; try discriminate Hl.
      apply (writes_line _ _ (fcells [a; b; c; e; f; g]) _ []); [reflexivity| |constructor]. cbn [fcells map cells_args app]. auto 10. }
  rewrite !unlines_cons'. reflexivity.
Qed.
Lemma rows13 : forall d k ls i l, has (seq_of (seq_of as_flt)) d k ls -> nth_error ls i = Some l ->
  writes (row13 (at_ (ix d k) (Z.of_nat i))) (unlines [cells_text (fcells l)]) /\ gi (len_arg (at_ (ix d k) (Z.of_nat i))) (Z.of_nat (length l)).
Proof.
  intros d k ls i l H Hi. destruct (has_at _ _ _ _ _ _ _ H Hi) as (v & E & Hv). split; [eapply row13_writes; eassumption|].
  rewrite E. apply len_arg_ok. cbn [rbind]. destruct Hv as (vs & Hs & H2). unfold py_len. rewrite Hs. cbn [rbind]. rewrite (Forall2_len _ _ _ _ _ H2). reflexivity.
Qed.
(** The data part, after the defaults are filled in. *)
Lemma body_writes : forall d a, has is_num d "dataset_location" (n_loc a) -> has is_num d "analysis_type" (n_an a) ->
  has is_num d "number_of_data_values_for_the_data_component" (n_nv a) ->
  Forall2 (fun k z => has as_int d k z) (k10 (n_body a)) (n_r10 a) -> Forall2 (fun k z => has as_int d k z) (k11 (n_body a)) (n_r11 a) ->
  Forall2 (fun k z => has as_flt d k z) (k12 (n_body a)) (n_r12 a) -> Forall2 (fun k z => has as_flt d k z) (k13 (n_body a)) (n_r13 a) ->
  length (n_r12 a) = 6 -> length (n_r13 a) = 6 ->
  repr_body d (n_nv a) (n_body a) -> kind_ok a -> wfw_body (n_nv a) (n_body a) ->
  writes (body2414 d) (unlines ([zline (n_r10 a); zline (n_r11 a); gline (n_r12 a); gline (n_r13 a)] ++ body_lines (n_body a)) ++ TLINE).
Proof.
  intros d a R1 R2 R3 R10 R11 R12 R13 L12 L13 Rb Hk Wb. unfold body2414.
  destruct (has_get _ _ _ _ _ R2) as (va & -> & _ & Qa). destruct (has_get _ _ _ _ _ R1) as (vl & Evl & _ & Ql). rewrite Qa, Evl.
  rewrite unlines_app. rewrite !unlines_cons'. cbn [unlines map concat]. rewrite app_nil_r. rewrite <- !app_assoc. rewrite (app_assoc _ [LF]), (app_assoc (zline (n_r11 a))), (app_assoc (gline (n_r12 a))), (app_assoc (gline (n_r13 a))).
  unfold k10, k11, k12, k13, kind_ok in *.
  destruct (n_body a) as [rows|rows|rows|els|] eqn:Eb; cbn [is_freq body_lines repr_body wfw_body] in *.
  - rewrite Hk. cbn [Z.eqb Pos.eqb app]. destruct Wb as [Wn Wr].
    do 2 (apply ints_line; [assumption|reflexivity|]). do 2 (apply reals_line; [assumption|assumption|]).
    apply writes_app; [|exact end_writes]. eapply shape_writes; [apply Rb|]. intros i w Hi. eapply freq_writes; try eassumption.
    rewrite Forall_forall in Wr. apply (Wr w). eapply nth_error_In. eassumption.
  - destruct Hk as [K1 K2]. rewrite (proj2 (Z.eqb_neq _ _) K1), !Ql, K2. cbn [Z.eqb Pos.eqb app].
    do 2 (apply ints_line; [assumption|reflexivity|]). do 2 (apply reals_line; [assumption|assumption|]).
    apply writes_app; [|exact end_writes]. destruct Rb as [B1 B2]. eapply shape_writes; [exact B1|]. intros i [z l] Hi.
    destruct (rows13 _ _ _ _ _ B2 (map_nth_error snd i rows Hi)) as [B3 _]. cbn [snd] in B3. unfold row_lines. cbn [fst snd].
    rewrite unlines_cons'. apply (writes_line _ _ [CI 10 z]); [reflexivity| |exact B3]. cbn [cells_args app]. split; [|exact Logic.I].
    apply arr_seq in B1. exact (has_gi_at _ _ _ _ _ B1 (map_nth_error fst i rows Hi)).
  - destruct Hk as [K1 K2]. rewrite (proj2 (Z.eqb_neq _ _) K1), !Ql, K2. cbn [Z.eqb Pos.eqb app].
    do 2 (apply ints_line; [assumption|reflexivity|]). do 2 (apply reals_line; [assumption|assumption|]).
    apply writes_app; [|exact end_writes]. destruct Rb as [B1 B2]. eapply shape_writes; [exact B1|]. intros i [z l] Hi.
    destruct (rows13 _ _ _ _ _ B2 (map_nth_error snd i rows Hi)) as [B3 B4]. cbn [snd] in B3, B4. unfold el_lines, el_head, zline. cbn [fst snd].
    rewrite unlines_cons'. apply (writes_line _ _ (map (CI 10) [z; Z.of_nat (length l)])); [reflexivity| |exact B3]. cbn [map cells_args app].
    split; [|split; [exact B4|exact Logic.I]].
    apply arr_seq in B1. exact (has_gi_at _ _ _ _ _ B1 (map_nth_error fst i rows Hi)).
  - destruct Hk as [K1 K2]. rewrite (proj2 (Z.eqb_neq _ _) K1), !Ql, K2. cbn [Z.eqb Pos.eqb app].
    do 2 (apply ints_line; [assumption|reflexivity|]). do 2 (apply reals_line; [assumption|assumption|]).
    apply writes_app; [|exact end_writes]. destruct Rb as (B1 & B2 & B3 & B4 & B5). eapply shape_writes; [exact B1|]. apply arr_seq in B1. intros i el Hi.
    unfold on_lines. rewrite unlines_cons'. cbn [map].
    apply (writes_line _ _ (map (CI 10) (on_head el))); [reflexivity| |].
    + cbn [on_head map cells_args app].
      split; [exact (has_gi_at _ _ _ _ _ B1 (map_nth_error o_num i els Hi))|]. split; [exact (has_gi_at _ _ _ _ _ B2 (map_nth_error o_exp i els Hi))|].
      split; [exact (has_gi_at _ _ _ _ _ B3 (map_nth_error o_nodes i els Hi))|]. split; [exact (has_gi_at _ _ _ _ _ B4 (map_nth_error o_per i els Hi))|exact Logic.I].
    + destruct (has_at _ _ _ _ _ _ _ B5 (map_nth_error o_rows i els Hi)) as (v & -> & vs & Hs & H2). cbn [rbind]. rewrite Hs. clear - H2.
      induction H2 as [|r l vs ls Hr _ IH]; [constructor|]. cbn [flat_map map].
      change (unlines (?x :: ?y)) with (unlines ([x] ++ y)). rewrite unlines_app. apply writes_app; [|exact IH]. eapply row13_writes; [reflexivity|exact Hr].
  - destruct Hk as [K1 K2]. rewrite (proj2 (Z.eqb_neq _ _) K1), !Ql. cbn [In] in K2.
    rewrite (proj2 (Z.eqb_neq (n_loc a) 1)), (proj2 (Z.eqb_neq (n_loc a) 2)), (proj2 (Z.eqb_neq (n_loc a) 3)), (proj2 (Z.eqb_neq (n_loc a) 5)) by (intro Q; apply K2; auto 10).
    cbn [app]. do 2 (apply ints_line; [assumption|reflexivity|]). do 2 (apply reals_line; [assumption|assumption|]). exact end_writes.
Qed.

(* ------------------------------------------------------------------ *)
(** ** Reading *)

Lemma header_int80 : forall z k, length (dec_Z z) <= 10 -> parse_header_line (zline [z] ++ [LF]) 1 [80] [2%Z] [k] = Ok [(KS k, VInt z)].
Proof.
  intros z k Hz. rewrite (header_fields _ _ _ _ _ [dec_Z z] [Some (VInt z)]); try reflexivity.
  - cbn [cut_fields]. unfold zline. cbn [map]. rewrite cells_one. cbn [cell_text]. unfold extend80.
    assert (Hl : length (rjust 10 (dec_Z z) ++ [LF]) = 11) by (rewrite app_length, rjust_length by assumption; reflexivity).
    rewrite Hl. change (Nat.ltb 11 80) with true. cbv iota. change (80 - 11) with 69.
    rewrite firstn_all2 by (rewrite app_length, Hl, repeat_length; lia). rewrite <- app_assoc.
    assert (Hs : strip (rjust 10 (dec_Z z) ++ [LF] ++ repeat blank 69) = dec_Z z) by (unfold strip at 1; rewrite strip_by_post by reflexivity; fold (strip (rjust 10 (dec_Z z))); rewrite strip_rjust; apply strip_dec).
    rewrite Hs. reflexivity.
  - constructor; [|constructor]. cbn [fst snd]. assert (E := fv_int 10 z). rewrite strip_rjust, strip_dec in E. exact E.
Qed.
Lemma headw_read : forall d a x0 y0 rest, repr2414 d a -> wfw2414 a ->
  header_recs (firstn 15 (map (fun l => l ++ [LF]) (TAG :: hdr2414 :: head_with a x0 y0 ++ rest))) [(KS "type", VInt 2414)] recs2414_head = Ok (pre2414 a).
Proof.
  intros d a x0 y0 rest R W. destruct (headw_ok d a R W) as [(V1 & V2 & V3 & _) _]. 
  assert (R1 : Forall2 (fun k s => has as_txt d k s) id_keys (n_ids a)) by apply R. apply forall2_5 in R1 as (v & w & x & y & z & Ei & _).
  unfold head_with, pre2414, recs2414_head, H. rewrite Ei. cbn [map app firstn]. cbn [header_recs h_line h_min h_widths h_types h_names]. cbn [ln nth_error of_option rbind].
  inversion V1 as [|? ? U1 _]; subst. inversion V2 as [|? ? U2 _]; subst. cbn [width_ok] in U1, U2.
  rewrite (header_int80 (n_label a)), (header_int80 (n_loc a)) by assumption. rewrite !header_str80. cbn [rbind].
  hdr_cells (map (CI 10) (head9 a)) (@nil nat) (map (fun z => Some (VInt z)) (head9 a)) V3.
  reflexivity.
Qed.
Lemma head_read2414 : forall d a rest, repr2414 d a -> wf2414 a ->
  header_recs (firstn 15 (map (fun l => l ++ [LF]) (TAG :: hdr2414 :: head_lines a ++ rest))) [(KS "type", VInt 2414)] recs2414_head = Ok (pre2414 a).
Proof. intros d a rest R W. exact (headw_read d a _ _ rest R (wf_wfw a W)). Qed.
Lemma recs_read : forall d a rest, repr2414 d a -> wf2414 a ->
  header_recs (firstn 15 (map (fun l => l ++ [LF]) (TAG :: hdr2414 :: head_lines a ++ rest))) (pre2414 a) (if is_freq (n_body a) then recs2414_5 else recs2414_n) =
    Ok (pre2414 a ++ recs_out a).
Proof.
  intros d a rest R W. destruct (lens d a R) as (L1 & L2 & L3 & L4 & L5). destruct (head_ok2414 d a R W) as [(_ & _ & _ & V1 & V2 & V3 & V4) _]. clear W.
  assert (R1 : Forall2 (fun k s => has as_txt d k s) id_keys (n_ids a)) by apply R. apply forall2_5 in R1 as (v & w & x & y & z & Ei & _). clear R.
  unfold head_lines, pre2414, recs_out, k10, k11, k12, k13. rewrite Ei. 
  destruct (n_r10 a) as [|a1 [|a2 [|a3 [|a4 [|a5 [|a6 [|a7 [|a8 [|? ?]]]]]]]]]; try discriminate L1.
  destruct (n_r12 a) as [|c1 [|c2 [|c3 [|c4 [|c5 [|c6 [|? ?]]]]]]]; try discriminate L3.
  destruct (n_r13 a) as [|e1 [|e2 [|e3 [|e4 [|e5 [|e6 [|? ?]]]]]]]; try discriminate L4.
  destruct (is_freq (n_body a)).
  - destruct (n_r11 a) as [|b1 [|b2 [|? ?]]]; try discriminate L2. unfold recs2414_5, H.
    cbn [map app firstn]. cbn [header_recs h_line h_min h_widths h_types h_names]. cbn [ln nth_error of_option rbind].
    hdr_cells (map (CI 10) [a1; a2; a3; a4; a5; a6; a7; a8]) (@nil nat) (map (fun z => Some (VInt z)) [a1; a2; a3; a4; a5; a6; a7; a8]) V1.
    hdr_cells (map (CI 10) [b1; b2]) (@nil nat) (map (fun z => Some (VInt z)) [b1; b2]) V2.
    hdr_cells (fcells [c1; c2; c3; c4; c5; c6]) (@nil nat) (map (fun z => Some (VFloat (r6f z))) [c1; c2; c3; c4; c5; c6]) V3.
    hdr_cells (fcells [e1; e2; e3; e4; e5; e6]) (@nil nat) (map (fun z => Some (VFloat (r6f z))) [e1; e2; e3; e4; e5; e6]) V4.
    reflexivity.
  - destruct (n_r11 a) as [|b1 [|b2 [|b3 [|b4 [|b5 [|b6 [|b7 [|b8 [|? ?]]]]]]]]]; try discriminate L2. unfold recs2414_n, H.
    cbn [map app firstn]. cbn [header_recs h_line h_min h_widths h_types h_names]. cbn [ln nth_error of_option rbind].
    hdr_cells (map (CI 10) [a1; a2; a3; a4; a5; a6; a7; a8]) (@nil nat) (map (fun z => Some (VInt z)) [a1; a2; a3; a4; a5; a6; a7; a8]) V1.
    hdr_cells (map (CI 10) [b1; b2; b3; b4; b5; b6; b7; b8]) (@nil nat) (map (fun z => Some (VInt z)) [b1; b2; b3; b4; b5; b6; b7; b8]) V2.
    hdr_cells (fcells [c1; c2; c3; c4; c5; c6]) (@nil nat) (map (fun z => Some (VFloat (r6f z))) [c1; c2; c3; c4; c5; c6]) V3.
    hdr_cells (fcells [e1; e2; e3; e4; e5; e6]) (@nil nat) (map (fun z => Some (VFloat (r6f z))) [e1; e2; e3; e4; e5; e6]) V4.
    reflexivity.
Qed.

(** *** Frequency response *)

Definition row_cells (w : Z * list float) : list cell := CI 10 (fst w) :: fcells (snd w).
Lemma num_parse : forall l, Forall num_cell l -> parse_floats (map cell_tok l) = Ok (map cell_flt l).
Proof.
  intros l H. unfold parse_floats, rmap. rewrite map_map. apply rseq_map_ok. rewrite Forall_forall in H. intros c Hc.
  specialize (H c Hc). destruct c; try contradiction; cbn [cell_tok cell_flt]; [apply py_float_dec|apply py_float_fmt].
Qed.
Lemma split_frow : forall l, Forall w12 l -> split (cells_text (fcells l)) = map cell_tok (fcells l).
Proof.
  intros l H. apply split_cells. unfold fcells. rewrite Forall_map. eapply Forall_impl; [|exact H]. intros f [_ Hf]. exact Hf.
Qed.
Lemma split_rows : forall rows, Forall (fun w => Forall w12 (snd w)) rows ->
  split (unlines (flat_map row_lines rows)) = map cell_tok (flat_map row_cells rows).
Proof.
  intros rows H. rewrite split_unlines. induction H as [|[z l] rows Hw _ IH]; [reflexivity|]. cbn [flat_map]. rewrite flat_map_app, map_app. f_equal; [|exact IH].
  unfold row_lines, row_cells. cbn [fst snd flat_map map] in *. rewrite cells_one. cbn [cell_text cell_tok]. rewrite split_rjust by apply dec_Z_nonws.
  rewrite split_frow by assumption. rewrite app_nil_r. reflexivity.
Qed.
Lemma fits10_int64 : forall z, fits 10 z -> int64_ok z = true.
Proof. intros z [H1 H2]. unfold int64_ok. apply andb_true_iff. split; [apply Z.leb_le|apply Z.ltb_lt]; cbn in *; lia. Qed.
Lemma trunc_ok : forall zs, Forall (fits 10) zs -> np_trunc (map float_of_Z zs) = Ok (vints zs).
Proof.
  intros zs H. unfold np_trunc, rmap. rewrite map_map. rewrite (rseq_map_ok _ _ _ (fun z => z)).
  - rewrite map_id. reflexivity.
  - intros z Hz. rewrite Forall_forall in H. specialize (H z Hz). rewrite py_int_of_float_exact by (apply (fits_53 10); [lia|assumption]).
    rewrite fits10_int64 by assumption. reflexivity.
Qed.
Lemma join_pairs : forall k n rows, 2 * k + 1 < n -> Forall (fun w : Z * list float => length (snd w) = n /\ Forall okfin (snd w)) rows ->
  np_cjoin (map r6f (colf (2 * k) rows)) (map r6f (colf (2 * k + 1) rows)) = Ok (cplx_out k rows).
Proof.
  intros k n rows Hk H. unfold np_cjoin, bcast2, cplx_out, colf, colc. rewrite !map_length, Nat.eqb_refl. cbn [rbind]. f_equal. f_equal.
  rewrite !map_map. induction H as [|w rows [Hl Hw] _ IH]; [reflexivity|]. cbn [map combine fst snd]. f_equal; [|exact IH].
  rewrite Forall_forall in Hw. apply (r6c_join (_, _)); apply Hw, nth_In; lia.
Qed.
Lemma freq_read : forall d nv dt rows, wf_body nv (AFreq rows) ->
  ix d "number_of_data_values_for_the_data_component" = Ok (VInt nv) -> ix d "data_type" = Ok (VInt dt) ->
  freq_data d (split (unlines (flat_map row_lines rows))) = Ok (dupdate d (out_body nv dt (AFreq rows))).
Proof.
  intros d nv dt rows [Hn Hw] E1 E2. unfold freq_data. rewrite E1, E2. cbn [rbind py_eqZ out_body]. destruct (dt =? 5)%Z; [|reflexivity].
  set (n := 2 * Z.to_nat nv) in *.
  rewrite split_rows by (eapply Forall_impl; [|exact Hw]; intros w (_ & _ & _ & F); eapply Forall_impl; [|exact F]; intros f [Hf _]; exact Hf).
  rewrite num_parse.
  2:{ apply Forall_fm. rewrite Forall_forall. intros w _. unfold row_cells. constructor; [cbn; lia|]. unfold fcells. rewrite Forall_map, Forall_forall. intros; cbn; lia. }
  cbn [rbind]. rewrite (proj2 (Z.ltb_ge nv 0)) by lia. cbv zeta.
  assert (Ef : map cell_flt (flat_map row_cells rows) = flat_map (fun w => float_of_Z (fst w) :: map r6f (snd w)) rows).
  { clear. induction rows as [|[z l] rows IH]; [reflexivity|]. cbn [flat_map]. rewrite map_app, IH. unfold row_cells, fcells. cbn [fst snd map cell_flt]. rewrite map_map. reflexivity. }
  rewrite Ef. clear Ef. set (vs := flat_map _ rows).
  replace (Z.to_nat nv * 2 + 1) with (S n) by (unfold n; lia).
  assert (V0 : every 0 (S n) vs = map float_of_Z (map fst rows)).
  { rewrite map_map. apply every_table; [lia|]. intros w Hi. rewrite Forall_forall in Hw. destruct (Hw w Hi) as (_ & _ & L & _).
    cbn [length nth_error]. rewrite map_length. split; [f_equal; assumption|reflexivity]. }
  assert (VS : forall j, j < n -> every (S j) (S n) vs = map r6f (colf j rows)).
  { intros j Hj. unfold colf. rewrite map_map. apply every_table; [lia|]. intros w Hi. rewrite Forall_forall in Hw. destruct (Hw w Hi) as (_ & _ & L & _).
    cbn [length nth_error]. rewrite map_length. split; [f_equal; assumption|]. apply map_nth_error, nth_error_nth'. unfold n in *. lia. }
  assert (Hj : Forall (fun w : Z * list float => length (snd w) = n /\ Forall okfin (snd w)) rows).
  { eapply Forall_impl; [|exact Hw]. intros w (_ & _ & L & F). split; [assumption|]. eapply Forall_impl; [|exact F]. intros f [[F1 _] F2]. split; assumption. }
  rewrite V0, trunc_ok by (rewrite Forall_map; eapply Forall_impl; [|exact Hw]; intros w (F & _); exact F). cbn [rbind].
  rewrite (VS 0), (VS 1) by (unfold n; lia). rewrite (join_pairs 0 n) by (assumption || (unfold n; lia)). cbn [rbind].
  destruct (2 <=? nv)%Z eqn:N2.
  - apply Z.leb_le in N2. rewrite (VS 2), (VS 3) by (unfold n; lia). rewrite (join_pairs 1 n) by (assumption || (unfold n; lia)). cbn [rbind].
    destruct (3 <=? nv)%Z eqn:N3.
    + apply Z.leb_le in N3. rewrite (VS 4), (VS 5) by (unfold n; lia). rewrite (join_pairs 2 n) by (assumption || (unfold n; lia)). reflexivity.
    + reflexivity.
  - apply Z.leb_gt in N2. rewrite (proj2 (Z.leb_gt 3 nv)) by lia. reflexivity.
Qed.

(** *** Data by location *)

Lemma float_row_ok : forall l, Forall w12 l -> float_row (cells_text (fcells l)) = Ok (frow l).
Proof.
  intros l H. unfold float_row. rewrite split_frow by assumption. rewrite num_parse by (unfold fcells; rewrite Forall_map, Forall_forall; intros; cbn; lia).
  cbn [rbind]. unfold frow, fcells. rewrite map_map. reflexivity.
Qed.
Lemma float_rows_ok : forall A (g : A -> list float) rows, Forall (fun w => Forall w12 (g w)) rows ->
  rmap float_row (map (fun w => cells_text (fcells (g w))) rows) = Ok (map (fun w => frow (g w)) rows).
Proof.
  intros A g rows H. unfold rmap. rewrite map_map. apply rseq_map_ok. intros w Hw. apply float_row_ok. rewrite Forall_forall in H. apply H. assumption.
Qed.
(** A column of the lines of integers. *)
Lemma str_column_ok : forall A (g : A -> list Z) (c : A -> Z) j n (rows : list A), rows <> [] ->
  (forall w, In w rows -> length (g w) = n /\ nth_error (g w) j = Some (c w) /\ fits 10 (c w)) ->
  str_column (map (fun w => map dec_Z (g w)) rows) j = Ok (vints (map c rows)).
Proof.
  intros A g c j n rows Hn H. destruct rows as [|w0 rows]; [congruence|]. unfold str_column. cbn [map].
  match goal with |- (if ?b then _ else _) = _ => replace b with true end.
  2:{ symmetry. apply forallb_forall. intros x Hx. change (In x (map (fun w => map dec_Z (g w)) (w0 :: rows))) in Hx. apply in_map_iff in Hx as (w & <- & Hw).
      rewrite !map_length. destruct (H w Hw) as [-> _]. destruct (H w0 (or_introl eq_refl)) as [-> _]. apply Nat.eqb_refl. }
  change (map dec_Z (g w0) :: map (fun w => map dec_Z (g w)) rows) with (map (fun w => map dec_Z (g w)) (w0 :: rows)).
  unfold rmap at 1. rewrite map_map. rewrite (rseq_map_ok _ _ _ (fun w => dec_Z (c w))).
  - cbn [rbind]. rewrite <- map_map. rewrite parse_ints_dec. cbn [rbind]. unfold np_int_array.
    replace (forallb int64_ok (map c (w0 :: rows))) with true; [reflexivity|]. symmetry. apply forallb_forall. intros z Hz. apply in_map_iff in Hz as (w & <- & Hw).
    apply fits10_int64. apply H. assumption.
  - intros w Hw. unfold ln. destruct (H w Hw) as (_ & E & _). rewrite (map_nth_error dec_Z _ _ E). reflexivity.
Qed.
Definition st_of (els : list on_elem) : st3 :=
  {| s_el := map o_num els; s_ie := map o_exp els; s_nn := map o_nodes els; s_nv := map o_per els; s_da := map (fun el => VList (map frow (o_rows el))) els |}.
Lemma loop2414_ok : forall els (pre : list str) don fuel, wf_body 0 (AOn els) -> length els <= fuel ->
  loop2414 fuel (pre ++ flat_map on_lines els) (Z.of_nat (length pre)) (st_of don) = Ok (st_of (don ++ els)).
Proof.
  induction els as [|el els IH]; intros pre don fuel Hw Hf.
  - cbn [flat_map]. rewrite !app_nil_r. destruct fuel; cbn [loop2414]; rewrite Z.ltb_irrefl; reflexivity.
  - inversion Hw as [|? ? (W1 & W2 & W3 & W4 & W5) Hws]; subst. destruct fuel as [|fuel]; [cbn in Hf; lia|].
    cbn [flat_map]. set (lines := pre ++ on_lines el ++ flat_map on_lines els). cbn [loop2414].
    match goal with |- (if ?b then _ else _) = _ => assert (Hlt : b = true) end.
    { apply Z.ltb_lt. unfold lines, on_lines. rewrite !app_length. cbn [length]. lia. }
    rewrite Hlt. rewrite (py_nth_ok _ lines (length pre) (zline (on_head el))).
    2:{ unfold lines, on_lines. rewrite nth_error_app2, Nat.sub_diag by lia. reflexivity. }
    cbn [rbind]. destruct (zline_ok (o_num el) [o_exp el; o_nodes el; o_per el] W1 W2 W3) as [_ Es].
    change (o_num el :: [o_exp el; o_nodes el; o_per el]) with (on_head el) in Es. rewrite Es. cbn [on_head map]. unfold tok_int. cbn [ln nth_error of_option rbind].
    rewrite !py_int_dec. cbn [rbind]. fold (lines_of el). rewrite W4.
    set (mid := map (fun l => cells_text (fcells l)) (o_rows el)).
    assert (El : lines = (pre ++ [zline (on_head el)]) ++ mid ++ flat_map on_lines els) by (unfold lines, on_lines; rewrite <- app_assoc; reflexivity).
    replace (Z.of_nat (length pre) + 1)%Z with (Z.of_nat (length (pre ++ [zline (on_head el)]))) by (rewrite app_length; cbn [length]; lia).
    assert (Em : (Z.of_nat (length (pre ++ [zline (on_head el)])) + Z.of_nat (length (o_rows el)))%Z = Z.of_nat (length (pre ++ [zline (on_head el)]) + length mid)) by (unfold mid; rewrite map_length; lia).
    rewrite Em, El, slice_mid. unfold mid at 1. rewrite (float_rows_ok _ (fun l => l)) by assumption. cbn [rbind].
    rewrite app_assoc. rewrite <- app_length.
    specialize (IH ((pre ++ [zline (on_head el)]) ++ mid) (don ++ [el]) fuel Hws ltac:(cbn in Hf; lia)).
    replace (don ++ el :: els) with ((don ++ [el]) ++ els) by (rewrite <- app_assoc; reflexivity). rewrite <- IH. f_equal. unfold st_of. rewrite !map_app. reflexivity.
Qed.
Lemma on_len : forall els, length els <= length (flat_map on_lines els).
Proof. induction els as [|el els IH]; [reflexivity|]. cbn [flat_map length]. rewrite app_length. cbn [on_lines length]. lia. Qed.
Lemma np_int_ok : forall l, Forall (fits 10) l -> np_int_array l = Ok l.
Proof.
  intros l H. unfold np_int_array. replace (forallb int64_ok l) with true; [reflexivity|]. symmetry. apply forallb_forall. intros z Hz.
  apply fits10_int64. rewrite Forall_forall in H. auto.
Qed.
Lemma loc_read : forall d a nv dt fuel, ix d "dataset_location" = Ok (VInt (n_loc a)) -> is_freq (n_body a) = false -> kind_ok a -> wf_body nv (n_body a) ->
  length (body_lines (n_body a)) <= fuel -> loc_data fuel d (body_lines (n_body a)) = Ok (dupdate d (out_body nv dt (n_body a))).
Proof.
  intros d a nv dt fuel El Hf Hk Hw Hl. unfold loc_data. rewrite El. cbn [rbind py_eqZ]. unfold kind_ok in Hk.
  destruct (n_body a) as [rows|rows|rows|els|]; try discriminate Hf; cbn [wf_body body_lines out_body] in *; destruct Hk as [_ Hk].
  - rewrite Hk. cbn [Z.eqb Pos.eqb]. destruct Hw as [Hne Hw].
    rewrite (every_table1 _ _ _ 1 2 (fun w => cells_text (fcells (snd w)))) by (lia || (intro; split; reflexivity)).
    rewrite (every_table1 _ _ _ 0 2 (fun w => cells_text [CI 10 (fst w)])) by (lia || (intro; split; reflexivity)).
    rewrite float_rows_ok by (eapply Forall_impl; [|exact Hw]; intros w (_ & _ & F); exact F). cbn [rbind].
    assert (Es : map split (map (fun w : Z * list float => cells_text [CI 10 (fst w)]) rows) = map (fun w : Z * list float => map dec_Z [fst w]) rows).
    { rewrite map_map. apply map_ext. intro w. rewrite cells_one. apply split_rjust, dec_Z_nonws. }
    rewrite Es. rewrite (str_column_ok _ (fun w : Z * list float => [fst w]) fst 0 1) by (assumption || (intros w Hi; rewrite Forall_forall in Hw; destruct (Hw w Hi); repeat split; apply H)).
    reflexivity.
  - rewrite Hk. cbn [Z.eqb Pos.eqb]. destruct Hw as [Hne Hw].
    rewrite (every_table1 _ _ _ 1 2 (fun w => cells_text (fcells (snd w)))) by (lia || (intro; split; reflexivity)).
    rewrite (every_table1 _ _ _ 0 2 (fun w => zline (el_head w))) by (lia || (intro; split; reflexivity)).
    rewrite float_rows_ok by (eapply Forall_impl; [|exact Hw]; intros w (_ & _ & F); exact F). cbn [rbind].
    assert (Es : map split (map (fun w : Z * list float => zline (el_head w)) rows) = map (fun w : Z * list float => map dec_Z (el_head w)) rows).
    { rewrite map_map. apply map_ext_in. intros w Hi. rewrite Forall_forall in Hw. destruct (Hw w Hi) as (F1 & F2 & _). unfold el_head.
      apply zline_ok; [assumption|constructor; [assumption|constructor]|cbn [last]; lia]. }
    rewrite Es.
    rewrite (str_column_ok _ el_head fst 0 2) by (assumption || (intros w Hi; rewrite Forall_forall in Hw; destruct (Hw w Hi); repeat split; apply H)).
    cbn [rbind].
    rewrite (str_column_ok _ el_head (fun w => Z.of_nat (length (snd w))) 1 2) by (assumption || (intros w Hi; rewrite Forall_forall in Hw; destruct (Hw w Hi) as (_ & F & _); repeat split; apply (fits_9_10' _ F))).
    reflexivity.
  - rewrite Hk. cbn [Z.eqb Pos.eqb]. assert (L := loop2414_ok els [] [] fuel Hw ltac:(assert (Q := on_len els); lia)).
    cbn [app length Z.of_nat] in L. change (st_of []) with {| s_el := []; s_ie := []; s_nn := []; s_nv := []; s_da := [] |} in L. rewrite L. cbn [rbind st_of s_el s_ie s_nn s_nv s_da].
    rewrite !np_int_ok; [reflexivity| | | |]; rewrite Forall_map; (eapply Forall_impl; [|exact Hw]); intros el (F1 & F2 & _);
      repeat match goal with H : Forall (fits 9) (_ :: _) |- _ => inversion H; subst; clear H end; auto using fits_9_10'.
  - cbn [In] in Hk. 
    rewrite (proj2 (Z.eqb_neq (n_loc a) 1)), (proj2 (Z.eqb_neq (n_loc a) 2)), (proj2 (Z.eqb_neq (n_loc a) 3)) by (intro Q; apply Hk; auto 10). reflexivity.
Qed.

(* ------------------------------------------------------------------ *)
(** ** The data set *)

Lemma ix_app : forall d e k v, ix d k = Ok v -> ix (d ++ e) k = Ok v.
Proof. intros d e k v H. unfold ix in *. rewrite dget_app. destruct (dget d (KS k)); [exact H|discriminate]. Qed.
Lemma fields_opt : forall A (P : pyval -> A -> Prop) b d (dflt : A) ks l, P (VInt 0) dflt ->
  Forall (fun k => b = true \/ dget defaults2414 (KS k) = Some (VInt 0)) ks ->
  Forall2 (fun k a => field P b d k a dflt) ks l -> Forall2 (fun k a => has P (opt_fields d defaults2414) k a) ks l.
Proof.
  intros A P b d dflt ks l Hp Hk H. induction H as [|k a ks l Ha _ IH]; [constructor|]. inversion Hk as [|? ? Hk1 Hks]; subst. constructor; [|apply IH; assumption].
  unfold field in Ha. destruct b; [apply has_opt; assumption|]. destruct Hk1 as [Q|Q]; [discriminate|]. eapply has_opt_or; eassumption.
Qed.
Lemma dupdate_new : forall e d, NoDup (map fst e) -> Forall (fun kv => dget d (fst kv) = None) e -> dupdate d e = d ++ e.
Proof.
  induction e as [|[k v] e IH]; intros d Hn H; [rewrite app_nil_r; reflexivity|]. cbn [map fst] in Hn. inversion Hn as [|? ? Hk Hn']; subst.
  inversion H as [|? ? H1 H2]; subst. cbn [fst] in H1. change (dupdate d ((k, v) :: e)) with (dupdate (dput d k v) e).
  assert (E : dput d k v = d ++ [(k, v)]).
  { clear - H1. induction d as [|[k' v'] d IH]; [reflexivity|]. cbn [dput dget] in *. destruct (key_eqb k k') eqn:Q; [discriminate|]. cbn [app]. f_equal. apply IH. exact H1. }
  rewrite E. rewrite IH; [rewrite <- app_assoc; reflexivity|assumption|].
  rewrite Forall_forall in *. intros [k2 v2] Hi. cbn [fst]. rewrite dget_app. specialize (H2 _ Hi). cbn [fst] in H2. rewrite H2. cbn [dget].
  destruct (key_eqb k2 k) eqn:Q; [|reflexivity]. exfalso. apply Hk. apply in_map_iff. exists (k2, v2). split; [|assumption]. cbn [fst]. clear - Q.
  destruct k2, k; cbn in Q; try discriminate; [apply String.eqb_eq in Q|apply Z.eqb_eq in Q]; congruence.
Qed.
Lemma writes2414 : forall c m fd d a, repr2414 d a -> wfw2414 a ->
  writes (set_items c m fd d) (TLINE ++ unlines (hdr2414 :: linesw2414 a) ++ TLINE).
Proof.
  intros c m fd d a R W. destruct (lens d a R) as (L1 & L2 & L3 & L4 & L5).
  destruct R as (Hty & Hdat & R1 & R2 & R3 & R4 & R5 & R6 & R7 & R8 & R9 & R10 & R11 & R12 & R13 & R14 & R15).
  destruct W as (_ & _ & _ & _ & _ & _ & _ & _ & W9 & W10 & W11 & W12).
  rewrite (set_items_text c m fd d (VInt 2414) Hty Hdat). change (write_dispatch c m fd (VInt 2414) d) with (write2414 d). unfold write2414. cbn [wp_items].
    apply (fields_opt _ as_int _ _ 0%Z) in R11; [|reflexivity|unfold k10; destruct (is_freq (n_body a)); cbn [keys10 other10]; repeat constructor; auto; right; reflexivity].
    apply (fields_opt _ as_int _ _ 0%Z) in R12; [|reflexivity|unfold k11; destruct (is_freq (n_body a)); cbn [keys11 other11]; repeat constructor; auto; right; reflexivity].
    apply (fields_opt _ as_flt _ _ f_zero) in R13; [|reflexivity|unfold k12; destruct (is_freq (n_body a)); cbn [keys12 other12]; repeat constructor; auto; right; reflexivity].
    apply (fields_opt _ as_flt _ _ f_zero) in R14; [|reflexivity|unfold k13; destruct (is_freq (n_body a)); cbn [keys13 other13]; repeat constructor; auto; right; reflexivity].
    assert (R4' : Forall2 (fun k s => has as_txt (opt_fields d defaults2414) k s) id_keys (n_ids a)).
    { clear - R4. induction R4; constructor; auto. apply has_opt. assumption. }
    assert (R15' : repr_body (opt_fields d defaults2414) (n_nv a) (n_body a)).
    { clear - R15. destruct (n_body a); cbn [repr_body] in *; repeat match goal with H : _ /\ _ |- _ => destruct H end; repeat split; intros; try (apply has_opt; auto). }
    apply (has_opt _ _ _ defaults2414) in R1, R2, R3, R5, R6, R7, R8, R9, R10. set (d1 := opt_fields d defaults2414) in *. clearbody d1. clear R4 R15.
    assert (B := body_writes d1 a R3 R6 R10 R11 R12 R13 R14 L3 L4 R15' W11 W12).
    cbn [app]. eapply writes_eq.
    { apply writes_consr; [reflexivity|].
      apply (writes_line _ _ [CI 10 (n_label a)]); [reflexivity|cbn [cells_args app]; split; [apply has_gi; assumption|exact Logic.I]|].
      apply (writes_line _ _ [CS true 80 (n_name a)]); [reflexivity|cbn [cells_args app]; split; [apply has_gs; assumption|exact Logic.I]|].
      apply (writes_line _ _ [CI 10 (n_loc a)]); [reflexivity|cbn [cells_args app]; split; [apply has_gi; destruct R3 as (v & E & P & _); exists v; auto|exact Logic.I]|].
      apply (ids_writes d1 id_keys (n_ids a)); [assumption|].
      apply (ints_line d1 keys9 (head9 a)); [|reflexivity|exact B].
      unfold keys9, head9. destruct R6 as (v6 & E6 & P6 & _). destruct R10 as (v10 & E10 & P10 & _).
      repeat (constructor; [first [assumption|exists v6; split; assumption|exists v10; split; assumption]|]). constructor. }
    unfold linesw2414, headw_lines, head_with. rewrite unlines_cons'. rewrite !unlines_app. rewrite !unlines_cons'. cbn [unlines map concat app]. rewrite !cells_one. cbn [cell_text]. unfold zline. cbn [map]. rewrite !cells_one. cbn [cell_text].
    rewrite ?app_nil_r. rewrite <- ?app_assoc. reflexivity.
Qed.
Lemma linesw_eq : forall a, wf2414 a -> linesw2414 a = lines2414 a.
Proof. intros a W. unfold linesw2414. rewrite headw_eq by assumption. reflexivity. Qed.
Lemma set2414 : forall c m fd ho d a, repr2414 d a -> wf2414 a ->
  text_set c m fd ho d 2414 hdr2414 (lines2414 a) (read2414 a).
Proof.
  intros c m fd ho d a R W. assert (R' := R). assert (W' := W). destruct (lens d a R) as (L1 & L2 & L3 & L4 & L5).
  destruct (head_ok2414 d a R W) as [_ Hh]. 
  destruct R as (Hty & Hdat & R1 & R2 & R3 & R4 & R5 & R6 & R7 & R8 & R9 & R10 & R11 & R12 & R13 & R14 & R15).
  destruct W as (_ & _ & _ & _ & _ & _ & _ & _ & W9 & W10 & W11 & W12).
  assert (Hb := body_lines_ok _ _ (wf_wfw_body _ _ W12)).
  assert (Hok : Forall okline (hdr2414 :: lines2414 a)).
  { constructor; [apply hdr6_ok; [reflexivity|apply plain_ascii; reflexivity|discriminate]|]. apply Forall_app. auto. }
  constructor; [|assumption|reflexivity|].
  - rewrite <- linesw_eq by assumption. apply writes2414; [assumption|apply wf_wfw; assumption].
  - intros block _ Hb0. unfold extract_set. rewrite Hb0. cbn [Z.eqb Pos.eqb]. unfold extract2414, extract2414_fuel.
    rewrite split_text by assumption. cbv beta iota zeta. unfold lines2414.
    set (LS := @cons str (TAG ++ [LF]) _).
    change LS with (map (fun l : str => l ++ [LF]) (TAG :: hdr2414 :: head_lines a ++ body_lines (n_body a))) in *.
    assert (Hr := head_read2414 d a (body_lines (n_body a)) R' W'). assert (Hr2 := recs_read d a (body_lines (n_body a)) R' W').
    set (LL := map (fun l : str => l ++ [LF]) _) in *. 
    match type of Hr with header_recs ?x _ _ = _ => match goal with |- context [header_recs ?y _ recs2414_head] => change y with x end end. rewrite Hr. cbn [rbind].
    change (ix (pre2414 a) "analysis_type") with (ix (pre2414 a) "analysis_type").
    apply forall2_5 in R4 as (i1 & i2 & i3 & i4 & i5 & Ei & _).
    assert (X1 : ix (pre2414 a) "analysis_type" = Ok (VInt (n_an a))) by (unfold pre2414; rewrite Ei; reflexivity).
    assert (X2 : ix (pre2414 a) "dataset_location" = Ok (VInt (n_loc a))) by (unfold pre2414; rewrite Ei; reflexivity).
    assert (X3 : ix (pre2414 a) "data_type" = Ok (VInt (n_dt a))) by (unfold pre2414; rewrite Ei; reflexivity).
    assert (X4 : ix (pre2414 a) "number_of_data_values_for_the_data_component" = Ok (VInt (n_nv a))) by (unfold pre2414; rewrite Ei; reflexivity).
    rewrite X1. cbn [rbind py_eqZ].
    assert (Ej : join (skipn 15 LL) = unlines (body_lines (n_body a))).
    { unfold LL, head_lines. rewrite Ei. cbn [map app skipn]. unfold unlines, join. reflexivity. }
    assert (Eu : dupdate (pre2414 a ++ recs_out a) (out_body (n_nv a) (n_dt a) (n_body a)) = read2414 a).
    { unfold read2414. rewrite app_assoc. clear - L1 L2 L3 L4 Ei. apply dupdate_new.
      - destruct (n_body a); cbn [out_body]; [destruct (n_dt a =? 5)%Z; [destruct (2 <=? n_nv a)%Z, (3 <=? n_nv a)%Z|]| | | |]; cbn [app map fst];
          repeat (apply NoDup_cons; [intro Q; cbn [In] in Q; repeat (destruct Q as [Q|Q]; [discriminate Q|]); contradiction|]); apply NoDup_nil.
      - unfold pre2414, recs_out, k10, k11, k12, k13. rewrite Ei.
        destruct (n_r10 a) as [|a1 [|a2 [|a3 [|a4 [|a5 [|a6 [|a7 [|a8 [|? ?]]]]]]]]]; try discriminate L1.
        destruct (n_r12 a) as [|c1 [|c2 [|c3 [|c4 [|c5 [|c6 [|? ?]]]]]]]; try discriminate L3.
        destruct (n_r13 a) as [|e1 [|e2 [|e3 [|e4 [|e5 [|e6 [|? ?]]]]]]]; try discriminate L4.
        destruct (n_body a); cbn [is_freq] in *;
        [destruct (n_r11 a) as [|b1 [|b2 [|? ?]]]; try discriminate L2; cbn [out_body]; destruct (n_dt a =? 5)%Z; [destruct (2 <=? n_nv a)%Z, (3 <=? n_nv a)%Z|]
        |destruct (n_r11 a) as [|b1 [|b2 [|b3 [|b4 [|b5 [|b6 [|b7 [|b8 [|? ?]]]]]]]]]; try discriminate L2; cbn [out_body]..];
        repeat constructor. }
    rewrite Ej. destruct (is_freq (n_body a)) eqn:Ef.
    + destruct (n_body a) as [rows|rows|rows|els|] eqn:Eb; try discriminate Ef. unfold kind_ok in W11. rewrite Eb in W11. rewrite W11. cbn [Z.eqb Pos.eqb].
      rewrite Hr2. cbn [rbind body_lines].
      assert (Fr := freq_read (pre2414 a ++ recs_out a) (n_nv a) (n_dt a) rows W12 (ix_app _ _ _ _ X4) (ix_app _ _ _ _ X3)). rewrite Eu in Fr.
      match type of Fr with ?l = _ => match goal with |- try_any ?g _ = _ => change g with l end end. rewrite Fr. reflexivity.
    + assert (Hn : (n_an a =? 5)%Z = false).
      { apply Z.eqb_neq. clear - W11 Ef. unfold kind_ok in W11. destruct (n_body a); try discriminate; apply W11. }
      rewrite Hn, Hr2. cbn [rbind].
      assert (Es : splitlines_str false (unlines (body_lines (n_body a))) = body_lines (n_body a)).
      { unfold splitlines_str. rewrite splitlines_unlines; [reflexivity|reflexivity|]. rewrite forallb_forall. intros q Hq. rewrite Forall_forall in Hb. apply Hb. assumption. }
      rewrite Es. 
      match goal with |- context [loc_data ?f _ _] => assert (Lr := loc_read (pre2414 a ++ recs_out a) a (n_nv a) (n_dt a) f (ix_app _ _ _ _ X2) Ef W11 W12) end.
      rewrite Lr; [rewrite Eu; reflexivity|]. unfold LL. rewrite map_length. cbn [length]. rewrite app_length. lia.
Qed.
