(** Storing and reading back data sets 15, 82, 2411. *)
From Verif Require Import PyBase PyNum PyVal Utf8 Tools DsNodes DsHeaders Uff Facts IntFacts FloatFacts DecFacts FloatText FloatExact DictFacts
  Scan Container Append ContainerThms Utf8Facts Lines Stored Cells Rows.
From Coq Require Import Lia.
Open Scope nat_scope.
Open Scope list_scope.

(* ------------------------------------------------------------------ *)
(** ** 15 *)

(** A node: number, coordinate systems, colour, coordinates. *)
Record node := { n_num : Z; n_def : Z; n_disp : Z; n_color : Z; n_x : float; n_y : float; n_z : float }.
Definition node_dict (ty : Z) (P : pyval -> Z -> Prop) (d : dict) (l : list node) : Prop :=
  dget d (KS "type") = Some (VInt ty) /\ dget d (KS "data") = None /\
  has (seq_of P) d "node_nums" (map n_num l) /\
  has (seq_of as_flt) d "x" (map n_x l) /\ has (seq_of as_flt) d "y" (map n_y l) /\ has (seq_of as_flt) d "z" (map n_z l).
(** Missing entries count as zeros. *)
Definition repr15 (d : dict) (l : list node) : Prop :=
  node_dict 15 as_num d l /\
  has_or (seq_of as_num) d "def_cs" (map n_def l) (repeat 0%Z (length l)) /\
  has_or (seq_of as_num) d "disp_cs" (map n_disp l) (repeat 0%Z (length l)) /\
  has_or (seq_of as_num) d "color" (map n_color l) (repeat 0%Z (length l)).
Definition wf15 (l : list node) : Prop :=
  Forall (fun n => fits 9 (n_num n) /\ fits 9 (n_def n) /\ fits 9 (n_disp n) /\ fits 9 (n_color n) /\
    narrow 5 (n_x n) = true /\ narrow 5 (n_y n) = true /\ narrow 5 (n_z n) = true) l.
Definition read_nodes (ty : Z) (mk : list float -> pyval) (cv : float -> float) (l : list node) : dict :=
  [(KS "type", VInt ty);
   (KS "node_nums", mk (map (fun n => float_of_Z (n_num n)) l));
   (KS "def_cs", mk (map (fun n => float_of_Z (n_def n)) l));
   (KS "disp_cs", mk (map (fun n => float_of_Z (n_disp n)) l));
   (KS "color", mk (map (fun n => float_of_Z (n_color n)) l));
   (KS "x", mk (map (fun n => cv (n_x n)) l));
   (KS "y", mk (map (fun n => cv (n_y n)) l));
   (KS "z", mk (map (fun n => cv (n_z n)) l))].
Definition read15 (l : list node) : dict := read_nodes 15 vlist_f (rd 5) l.

Definition toks15 (n : node) : list str :=
  map dec_Z [n_num n; n_def n; n_disp n; n_color n] ++ map (fmt_e true 5) [n_x n; n_y n; n_z n].
Definition line15 (n : node) : str :=
  concat (map (fun z => rjust 10 (dec_Z z)) [n_num n; n_def n; n_disp n; n_color n]
          ++ map (fun f => rjust 13 (fmt_e true 5 f)) [n_x n; n_y n; n_z n]).

Lemma fstr_arg_ok : forall v f, fmt_float_arg v = Ok f -> fstr_arg v = Ok f.
Proof. intros v f H. destruct v; try exact H. discriminate. Qed.
Lemma fstr_int : forall w v z, as_num v z -> (Z.abs z < 2 ^ 53)%Z -> fstr (F0 w) v = Ok (rjust w (dec_Z z)).
Proof. intros w v z H Hz. unfold fstr. rewrite (fstr_arg_ok _ _ H). cbn [rbind]. rewrite fmt_f0_int by assumption. reflexivity. Qed.
Lemma fstr_flt : forall w p v f, as_flt v f -> fstr (FE w p) v = Ok (rjust w (fmt_e true p f)).
Proof. intros w p v f H. unfold fstr. rewrite (fstr_arg_ok _ _ H). reflexivity. Qed.

Lemma nth_map : forall A B (f : A -> B) l i a, nth_error l i = Some a -> nth_error (map f l) i = Some (f a).
Proof. intros A B f l i a H. rewrite nth_error_map, H. reflexivity. Qed.

Lemma rec15_ok : forall d l i n, 
  has (seq_of as_num) d "node_nums" (map n_num l) -> has (seq_of as_num) d "def_cs" (map n_def l) ->
  has (seq_of as_num) d "disp_cs" (map n_disp l) -> has (seq_of as_num) d "color" (map n_color l) ->
  has (seq_of as_flt) d "x" (map n_x l) -> has (seq_of as_flt) d "y" (map n_y l) -> has (seq_of as_flt) d "z" (map n_z l) ->
  wf15 l -> nth_error l i = Some n -> rec15 d (Z.of_nat i) = WTxt (Ok (line15 n ++ [LF])).
Proof.
  intros d l i n H1 H2 H3 H4 H5 H6 H7 Hw Hi. unfold rec15. f_equal.
  assert (Hn := Hw). unfold wf15 in Hn. rewrite Forall_forall in Hn. specialize (Hn n (nth_error_In _ _ Hi)).
  destruct Hn as (W1 & W2 & W3 & W4 & _).
  destruct (has_at _ _ _ _ _ _ _ H1 (nth_map _ _ n_num _ _ _ Hi)) as (v1 & E1 & P1).
  destruct (has_at _ _ _ _ _ _ _ H2 (nth_map _ _ n_def _ _ _ Hi)) as (v2 & E2 & P2).
  destruct (has_at _ _ _ _ _ _ _ H3 (nth_map _ _ n_disp _ _ _ Hi)) as (v3 & E3 & P3).
  destruct (has_at _ _ _ _ _ _ _ H4 (nth_map _ _ n_color _ _ _ Hi)) as (v4 & E4 & P4).
  destruct (has_at _ _ _ _ _ _ _ H5 (nth_map _ _ n_x _ _ _ Hi)) as (v5 & E5 & P5).
  destruct (has_at _ _ _ _ _ _ _ H6 (nth_map _ _ n_y _ _ _ Hi)) as (v6 & E6 & P6).
  destruct (has_at _ _ _ _ _ _ _ H7 (nth_map _ _ n_z _ _ _ Hi)) as (v7 & E7 & P7).
  unfold write_record, FORMATS15. cbn [map]. rewrite E1, E2, E3, E4, E5, E6, E7. cbn [rseq rbind combine map].
  rewrite (fstr_int 10 v1 _ P1), (fstr_int 10 v2 _ P2), (fstr_int 10 v3 _ P3), (fstr_int 10 v4 _ P4) by (apply fits_53 with (k := 9); [lia|assumption]).
  rewrite (fstr_flt 13 5 v5 _ P5), (fstr_flt 13 5 v6 _ P6), (fstr_flt 13 5 v7 _ P7). reflexivity.
Qed.

(** Right-justified tokens with at least one blank in front. *)
Lemma split_segs : forall (l : list (nat * str)), Forall (fun p => nonws (snd p) /\ length (snd p) < fst p) l ->
  split (concat (map (fun p => rjust (fst p) (snd p)) l)) = map snd l /\ lead_ws (concat (map (fun p => rjust (fst p) (snd p)) l)).
Proof.
  intros l H. assert (Hl : Forall lead_ws (map (fun p => rjust (fst p) (snd p)) l)).
  { rewrite Forall_map. eapply Forall_impl; [|exact H]. intros p [_ Hp]. apply lead_rjust. assumption. }
  split; [|apply lead_concat; assumption]. rewrite split_concat by assumption.
  clear Hl. induction H as [|p l [Hp _] _ IH]; [reflexivity|]. cbn [map flat_map]. rewrite split_rjust, IH by assumption. reflexivity.
Qed.
Lemma narrow_len : forall p u f, narrow p f = true -> length (fmt_e u p f) < p + 8.
Proof. intros p u f H. unfold narrow in H. apply Nat.leb_le in H. destruct u; [rewrite fmt_e_case|]; lia. Qed.

Definition segs15 (n : node) : list (nat * str) :=
  map (fun z => (10, dec_Z z)) [n_num n; n_def n; n_disp n; n_color n] ++ map (fun f => (13, fmt_e true 5 f)) [n_x n; n_y n; n_z n].
Lemma segs15_ok : forall l n, wf15 l -> In n l -> Forall (fun p => nonws (snd p) /\ length (snd p) < fst p) (segs15 n).
Proof.
  intros l n Hw Hn. unfold wf15 in Hw. rewrite Forall_forall in Hw. destruct (Hw n Hn) as (W1 & W2 & W3 & W4 & W5 & W6 & W7).
  repeat (constructor; [split; [first [apply dec_Z_nonws|apply fmt_e_nonws]|cbn [fst snd]; first [apply fits_lt with (k := 9); [lia|lia|assumption]|apply (narrow_len 5); assumption]]|]).
  constructor.
Qed.
Lemma line15_segs : forall n, line15 n = concat (map (fun p => rjust (fst p) (snd p)) (segs15 n)).
Proof. reflexivity. Qed.
Lemma toks15_segs : forall n, map snd (segs15 n) = toks15 n.
Proof. reflexivity. Qed.
Lemma line15_split : forall l n, wf15 l -> In n l -> split (line15 n) = toks15 n /\ lead_ws (line15 n).
Proof. intros l n Hw Hn. rewrite line15_segs, <- toks15_segs. apply split_segs. eapply segs15_ok; eauto. Qed.

Lemma seg_length : forall l, Forall (fun p => nonws (snd p) /\ length (snd p) < fst p) l ->
  length (concat (map (fun p : nat * str => rjust (fst p) (snd p)) l)) = list_sum (map fst l).
Proof.
  intros l H. induction H as [|p l [_ Hp] _ IH]; [reflexivity|]. cbn [map concat list_sum fold_right].
  rewrite app_length, IH, rjust_length by lia. reflexivity.
Qed.
Lemma line15_okline : forall l n, wf15 l -> In n l -> okline (line15 n).
Proof.
  intros l n Hw Hn. apply okline_plain.
  - apply plain_concat. repeat (constructor; [apply plain_rjust; first [apply plain_dec|apply plain_fmt]|]). constructor.
  - assert (E : exists q, line15 n = q ++ rjust 13 (fmt_e true 5 (n_z n))).
    { unfold line15. cbn [map app concat]. rewrite app_nil_r. rewrite !app_assoc. eexists. reflexivity. }
    destruct E as [q ->]. apply ends_tag_flt. lia.
  - rewrite line15_segs, seg_length by (eapply segs15_ok; eauto). cbn. lia.
Qed.

Definition vals15 (cv : float -> float) (n : node) : list float :=
  map float_of_Z [n_num n; n_def n; n_disp n; n_color n] ++ map cv [n_x n; n_y n; n_z n].
Lemma toks15_floats : forall l, parse_floats (flat_map toks15 l) = Ok (flat_map (vals15 (rd 5)) l).
Proof.
  induction l as [|n l IH]; [reflexivity|]. cbn [flat_map]. unfold parse_floats, rmap in *. rewrite map_app, rseq_app, IH.
  unfold toks15, vals15. cbn [map app rseq]. rewrite !py_float_dec, !py_float_fmt. reflexivity.
Qed.
Lemma every_nodes : forall cv l, let vs := flat_map (vals15 cv) l in
  every 0 7 vs = map (fun n => float_of_Z (n_num n)) l /\ every 1 7 vs = map (fun n => float_of_Z (n_def n)) l /\
  every 2 7 vs = map (fun n => float_of_Z (n_disp n)) l /\ every 3 7 vs = map (fun n => float_of_Z (n_color n)) l /\
  every 4 7 vs = map (fun n => cv (n_x n)) l /\ every 5 7 vs = map (fun n => cv (n_y n)) l /\ every 6 7 vs = map (fun n => cv (n_z n)) l.
Proof.
  intros cv l vs. unfold vs.
  repeat split; (apply every_table1; [lia|intro n; split; reflexivity]).
Qed.

Lemma split_lead_lines : forall ls, Forall lead_ws ls -> split (join ls) = flat_map split ls.
Proof. exact split_concat. Qed.

Definition hdr15 : str := lit "    15".
Lemma set15 : forall c m fd ho d l, repr15 d l -> wf15 l -> text_set c m fd ho d 15 hdr15 (map line15 l) (read15 l).
Proof.
  intros c m fd ho d l ((Hty & Hdat & Hnum & Hx & Hy & Hz) & Hdef & Hdisp & Hcol) Hw.
  assert (Hok : Forall okline (hdr15 :: map line15 l)).
  { constructor; [apply okline_plain; [apply plain_ascii; reflexivity| |cbn; lia]|].
    - intros [p Hp]. assert (El := f_equal (@length N) Hp). rewrite app_length in El. cbn in El.
      destruct p; [discriminate|cbn in El; lia].
    - rewrite Forall_map, Forall_forall. intros n Hn. eapply line15_okline; eauto. }
  constructor; [|assumption|reflexivity|].
  - rewrite (set_items_text c m fd d (VInt 15) Hty Hdat). change (write_dispatch c m fd (VInt 15) d) with (write15 d). unfold write15.
    rewrite (has_len _ _ _ _ _ Hnum). rewrite map_length. cbn [wp_items]. cbv zeta.
    set (d1 := opt_fields d _).
    assert (E : forall i n, nth_error l i = Some n -> rec15 d1 (Z.of_nat i) = WTxt (Ok (line15 n ++ [LF]))).
    { intros i n Hi. apply (rec15_ok d1 l); try assumption; unfold d1; try (apply has_opt; assumption).
      - eapply has_opt_or; [exact Hdef|reflexivity|apply zeros_num].
      - eapply has_opt_or; [exact Hdisp|reflexivity|apply zeros_num].
      - eapply has_opt_or; [exact Hcol|reflexivity|apply zeros_num]. }
    rewrite unlines_cons'. rewrite app_assoc.
    eapply writes_eq.
    { apply writes_consr; [reflexivity|]. apply writes_app.
      - rewrite (map_flat _ _ (rec15 d1)). apply (writes_rows _ _ (fun n => [line15 n])). intros i n Hi. rewrite (E i n Hi), unlines_one.
        apply writes_one. reflexivity.
      - apply writes_one. reflexivity. }
    rewrite <- map_flat. rewrite <- app_assoc. reflexivity.
  - intros block _ Hb. unfold extract_set. rewrite Hb. cbn [Z.eqb Pos.eqb]. unfold extract15.
    rewrite split_text by assumption.
    cbn [skipn]. rewrite split_lead_lines.
    + assert (Ef : flat_map split (map line15 l) = flat_map toks15 l).
      { rewrite flat_map_concat_map, map_map, <- flat_map_concat_map. rewrite !flat_map_concat_map. f_equal. apply map_ext_in.
        intros n Hn. apply (line15_split l); assumption. }
      rewrite Ef, toks15_floats. cbn [rbind try_any].
      destruct (every_nodes (rd 5) l) as (-> & -> & -> & -> & -> & -> & ->). reflexivity.
    + rewrite Forall_map, Forall_forall. intros n Hn. apply (line15_split l); assumption.
Qed.

(* ------------------------------------------------------------------ *)
(** ** 2411 *)

Definition repr2411 (d : dict) (l : list node) : Prop :=
  node_dict 2411 as_intc d l /\
  has (seq_of as_int) d "def_cs" (map n_def l) /\ has (seq_of as_int) d "disp_cs" (map n_disp l) /\
  has (seq_of as_int) d "color" (map n_color l).
Definition wf2411 (l : list node) : Prop :=
  Forall (fun n => fits 10 (n_num n) /\ fits 9 (n_def n) /\ fits 9 (n_disp n) /\ fits 9 (n_color n) /\ n_color n <> (-1)%Z /\
    f_valid (n_x n) = true /\ f_valid (n_y n) = true /\ f_valid (n_z n) = true) l.
Definition read2411 (l : list node) : dict := read_nodes 2411 vfloats (fun f => f) l.

Definition cells2411a (n : node) : list cell := [CI 10 (n_num n); CI 10 (n_def n); CI 10 (n_disp n); CI 10 (n_color n)].
Definition cells2411b (n : node) : list cell := [CE 25 16 (n_x n); CE 25 16 (n_y n); CE 25 16 (n_z n)].
Definition lines2411 (n : node) : list str := [cells_text (cells2411a n); cells_text (cells2411b n)].
Definition toks2411 (n : node) : list str := map cell_tok (cells2411a n ++ cells2411b n).

Lemma rec2411_ok : forall d l i n v, repr2411 d l -> nth_error l i = Some n -> as_intc v (n_num n) ->
  writes (rec2411 d (Z.of_nat i, v)) (unlines (lines2411 n)).
Proof.
  intros d l i n v ((Hty & Hdat & Hnum & Hx & Hy & Hz) & Hdef & Hdisp & Hcol) Hi Hv.
  unfold rec2411. cbn [fst snd]. unfold lines2411. rewrite !unlines_cons'.
  apply (writes_line _ _ (cells2411a n)); [reflexivity| |].
  { cbn [cells2411a cells_args app]. repeat split.
    - eapply int_arg_gi; [reflexivity|assumption].
    - eapply has_gi_at; [exact Hdef|apply nth_map; assumption].
    - eapply has_gi_at; [exact Hdisp|apply nth_map; assumption].
    - eapply has_gi_at; [exact Hcol|apply nth_map; assumption]. }
  apply (writes_line _ _ (cells2411b n)); [reflexivity| |constructor].
  cbn [cells2411b cells_args app]. repeat split; (eapply has_gf_at; [eassumption|apply nth_map; assumption]).
Qed.

(** A line whose first number may fill its column. *)
Lemma split_cells_first : forall c l, match c with CI _ _ | CE _ _ _ => True | _ => False end -> Forall spaced_cell l ->
  split (cells_text (c :: l)) = map cell_tok (c :: l).
Proof.
  intros c l Hc Hl. rewrite cells_text_cons. rewrite split_app_lead by (apply cells_lead; assumption). rewrite split_cells by assumption.
  destruct c; try contradiction; cbn [cell_text cell_tok map]; rewrite split_rjust; auto using dec_Z_nonws, fmt_e_nonws.
Qed.

Lemma lines2411_ok : forall l n, wf2411 l -> In n l -> Forall okline (lines2411 n) /\ flat_map split (lines2411 n) = toks2411 n.
Proof.
  intros l n Hw Hn. unfold wf2411 in Hw. rewrite Forall_forall in Hw. destruct (Hw n Hn) as (W1 & W2 & W3 & W4 & W5 & W6 & W7 & W8).
  assert (Sb : Forall spaced_cell (cells2411b n)).
  { repeat (constructor; [cbn [spaced_cell]; apply fmt16_lt; assumption|]). constructor. }
  assert (Sa : Forall spaced_cell [CI 10 (n_def n); CI 10 (n_disp n); CI 10 (n_color n)]).
  { repeat (constructor; [cbn [spaced_cell]; eapply fits_lt with (k := 9); [lia|lia|assumption]|]). constructor. }
  assert (Wa : Forall width_ok (cells2411a n)).
  { constructor; [cbn [width_ok]; apply fits_le; [lia|assumption]|]. eapply Forall_impl; [|exact Sa]. exact spaced_width. }
  assert (Wb : Forall width_ok (cells2411b n)) by (eapply Forall_impl; [|exact Sb]; exact spaced_width).
  split.
  - constructor; [|constructor; [|constructor]].
    + apply (okline_cells [CI 10 (n_num n); CI 10 (n_def n); CI 10 (n_disp n)] (CI 10 (n_color n))).
      * repeat constructor.
      * exact Wa.
      * cbn [last_ok]. split; [lia|assumption].
      * cbn. lia.
    + apply (okline_cells [CE 25 16 (n_x n); CE 25 16 (n_y n)] (CE 25 16 (n_z n))).
      * repeat constructor.
      * exact Wb.
      * cbn [last_ok]. lia.
      * cbn. lia.
  - unfold lines2411, toks2411. cbn [flat_map]. rewrite app_nil_r. unfold cells2411a. rewrite split_cells_first by (auto; exact Logic.I).
    rewrite split_cells by assumption. rewrite map_app. reflexivity.
Qed.
Lemma toks2411_floats : forall l, wf2411 l ->
  parse_floats (map d_to_E (flat_map toks2411 l)) = Ok (flat_map (vals15 (fun f => f)) l).
Proof.
  intros l H. induction H as [|n l (W1 & W2 & W3 & W4 & W5 & W6 & W7 & W8) _ IH]; [reflexivity|].
  cbn [flat_map]. unfold parse_floats, rmap in *. rewrite !map_app, rseq_app, IH.
  unfold toks2411, vals15, cells2411a, cells2411b. cbn [map app cell_tok rseq].
  rewrite !d_to_E_dec, !d_to_E_fmt, !py_float_dec, !py_float_fmt. rewrite !rd16_id by assumption. reflexivity.
Qed.

Lemma set2411 : forall c m fd ho d l, repr2411 d l -> wf2411 l ->
  text_set c m fd ho d 2411 (type_hdr 2411) (flat_map lines2411 l) (read2411 l).
Proof.
  intros c m fd ho d l Hr Hw. destruct (type_hdr_ok 2411 ltac:(lia)) as [Ht Hh].
  assert (Hok : Forall okline (type_hdr 2411 :: flat_map lines2411 l)).
  { constructor; [assumption|]. rewrite Forall_forall. intros x Hx. apply in_flat_map in Hx as (n & Hn & Hx).
    destruct (lines2411_ok l n Hw Hn) as [Ho _]. rewrite Forall_forall in Ho. auto. }
  constructor; [|assumption|assumption|].
  - assert (Hr' := Hr). destruct Hr as ((Hty & Hdat & Hnum & _) & _).
    rewrite (set_items_text c m fd d (VInt 2411) Hty Hdat). change (write_dispatch c m fd (VInt 2411) d) with (write2411 d). unfold write2411.
    cbn [wp_items]. destruct (has_get _ _ _ _ _ Hnum) as (v & -> & vs & Hs & H2). cbn [rbind]. rewrite Hs.
    rewrite hdr_writes. rewrite unlines_cons'. rewrite app_assoc.
    eapply writes_eq.
    { apply writes_consr; [reflexivity|]. apply writes_app; [|exact end_writes]. 
      instantiate (1 := unlines (flat_map lines2411 l)). rewrite unlines_flat.
      apply writes_flat_map2 with (g := fun a => unlines (lines2411 a)).
      assert (G : forall k, (forall i n, nth_error l i = Some n -> forall v, as_intc v (n_num n) -> writes (rec2411 d (Z.of_nat (k + i), v)) (unlines (lines2411 n))) ->
        Forall2 (fun a b => writes (rec2411 d a) (unlines (lines2411 b))) (combine (map Z.of_nat (seq k (length vs))) vs) l).
      { clear -H2. revert vs H2. induction l as [|n l IH]; intros vs H2 k H.
        - inversion H2; subst. constructor.
        - cbn [map] in H2. inversion H2 as [|v ? vs' ? Hv H2']; subst. cbn [length seq map combine]. constructor.
          + rewrite <- (Nat.add_0_r k). apply (H 0 n); [reflexivity|assumption].
          + apply IH; [assumption|]. intros i n' Hi v' Hv'. replace (S k + i) with (k + S i) by lia. apply (H (S i)); assumption. }
      apply (G 0). intros i n Hi v' Hv'. cbn [Nat.add]. eapply rec2411_ok; eauto. }
    unfold type_hdr. rewrite <- !app_assoc. reflexivity.
  - intros block _ Hb. unfold extract_set. rewrite Hb. cbn [Z.eqb Pos.eqb]. unfold extract2411.
    rewrite split_text by assumption. cbn [map skipn].
    change (join (map (fun l => l ++ [LF]) (flat_map lines2411 l))) with (unlines (flat_map lines2411 l)). rewrite split_unlines.
    assert (Ef : flat_map split (flat_map lines2411 l) = flat_map toks2411 l).
    { assert (Hall : forall n, In n l -> flat_map split (lines2411 n) = toks2411 n) by (intros n Hn; apply (lines2411_ok l n Hw Hn)).
      apply flat_map_flat. assumption. }
    rewrite Ef, toks2411_floats by assumption. cbn [rbind try_any].
    destruct (every_nodes (fun f => f) l) as (-> & -> & -> & -> & -> & -> & ->). reflexivity.
Qed.

(* ------------------------------------------------------------------ *)
(** ** 82 *)

Record trace := { t_num : Z; t_color : Z; t_id : str; t_nodes : list Z }.
(** Neighbouring nodes differ (the writer counts the differences). *)
Fixpoint steps (l : list pyval) : Prop :=
  match l with a :: (b :: _) as r => differ b a = true /\ steps r | _ => True end.
Definition repr82 (d : dict) (t : trace) : Prop :=
  dget d (KS "type") = Some (VInt 82) /\ dget d (KS "data") = None /\
  has as_int d "trace_num" (t_num t) /\
  has_or as_int d "color" (t_color t) 0%Z /\ has_or as_txt d "id" (t_id t) (lit "NONE") /\
  exists dt vs, dget d (KS "nodes") = Some (VArr dt vs) /\ (dt = DInt \/ dt = DFloat) /\ Forall2 as_int vs (t_nodes t) /\ steps vs.
Definition wf82 (t : trace) : Prop :=
  fits 10 (t_num t) /\ fits 10 (t_color t) /\ t_color t <> (-1)%Z /\ text_ok (t_id t) /\
  t_nodes t <> [] /\ fits 10 (Z.of_nat (length (t_nodes t))) /\
  Forall (fun z => fits 9 z /\ z <> (-1)%Z) (t_nodes t).
Definition read82 (t : trace) : dict :=
  [(KS "type", VInt 82); (KS "trace_num", VInt (t_num t)); (KS "n_nodes", VInt (Z.of_nat (length (t_nodes t))));
   (KS "color", VInt (t_color t)); (KS "id", VStr (strip (firstn 80 (t_id t))));
   (KS "nodes", vfloats (map float_of_Z (t_nodes t)))].

Definition head82 (t : trace) : list cell := [CI 10 (t_num t); CI 10 (Z.of_nat (length (t_nodes t))); CI 10 (t_color t)].
Definition row82 (r : list Z) : str := cells_text (map (CI 10) r).
Definition lines82 (t : trace) : list str := cells_text (head82 t) :: ljust 80 (t_id t) :: map row82 (rows_of 8 (t_nodes t)).

Lemma changes_steps : forall l, steps l -> l <> [] -> changes l + 1 = length l.
Proof.
  induction l as [|a l IH]; intros H Hn; [congruence|]. destruct l as [|b l]; [reflexivity|]. destruct H as [Hd H].
  change (changes (a :: b :: l)) with ((if differ b a then 1 else 0) + changes (b :: l)). rewrite Hd.
  specialize (IH H ltac:(discriminate)). cbn [length] in *. lia.
Qed.
Lemma row10_ok : forall vs zs, Forall2 as_int vs zs -> row10 vs = WTxt (Ok (row82 zs ++ [LF])).
Proof.
  intros vs zs H. unfold row10. f_equal.
  rewrite (rmap_Forall2 _ _ _ vs (map (fun z => rjust 10 (dec_Z z)) zs)).
  - cbn [rbind]. unfold row82, cells_text. rewrite map_map. reflexivity.
  - induction H as [|v z vs zs Hv _ IH]; cbn [map]; constructor; [|assumption].
    rewrite (pct_cells _ _ [CI 10 z]); [unfold cells_text; cbn [map concat cell_text]; rewrite app_nil_r; reflexivity|reflexivity|].
    cbn [cells_args]. split; [exact Hv|exact Logic.I].
Qed.
Lemma rows8_ok : forall n vs zs, Forall2 as_int vs zs -> writes (rows8 n vs) (unlines (map row82 (take_rows 8 n zs))).
Proof.
  induction n as [|n IH]; intros vs zs H; cbn [rows8 take_rows map]; [constructor|].
  rewrite (row10_ok _ (firstn 8 zs)) by (apply Forall2_firstn; assumption). rewrite unlines_cons'. constructor.
  apply IH. apply Forall2_skipn. assumption.
Qed.

Lemma row82_ok : forall t r, wf82 t -> In r (rows_of 8 (t_nodes t)) -> okline (row82 r) /\ split (row82 r) = map dec_Z r.
Proof.
  intros t r (_ & _ & _ & _ & _ & _ & Hn) Hr.
  assert (Hall : Forall (fun z => fits 9 z /\ z <> (-1)%Z) r).
  { rewrite Forall_forall in *. intros z Hz. apply Hn. apply (rows_In Z 8 _ r z); [lia|assumption|assumption]. }
  assert (Hl := rows_len Z 8 (t_nodes t) ltac:(lia)). rewrite Forall_forall in Hl. specialize (Hl r Hr).
  assert (Hs : Forall spaced_cell (map (CI 10) r)).
  { rewrite Forall_map. eapply Forall_impl; [|exact Hall]. intros z [Hz _]. cbn [spaced_cell]. eapply fits_lt with (k := 9); [lia|lia|assumption]. }
  split.
  - destruct (exists_last (l := r)) as (q & z & ->); [destruct r; [cbn in Hl; lia|discriminate]|].
    unfold row82. rewrite map_app. cbn [map]. apply okline_nums.
    + change ([CI 10 z]) with (map (CI 10) [z]). rewrite <- map_app. rewrite Forall_map. apply Forall_forall. intros x _. cbn [num_cell]. lia.
    + change ([CI 10 z]) with (map (CI 10) [z]). rewrite <- map_app. eapply Forall_impl; [|exact Hs]. exact spaced_width.
    + cbn [last_ok]. apply Forall_app in Hall as [_ Hz]. inversion Hz; subst. split; [lia|tauto].
  - unfold row82. rewrite split_cells by assumption. rewrite map_map. reflexivity.
Qed.

Lemma set82 : forall c m fd ho d t, repr82 d t -> wf82 t -> text_set c m fd ho d 82 (type_hdr 82) (lines82 t) (read82 t).
Proof.
  intros c m fd ho d t (Hty & Hdat & Hnum & Hcol & Hid & dt & vs & Hnodes & Hdt & H2 & Hst) Hw.
  assert (Hw' := Hw). destruct Hw as (W1 & W2 & W3 & W4 & W5 & W6 & W7).
  destruct (type_hdr_ok 82 ltac:(lia)) as [Ht Hh].
  assert (Wh : Forall width_ok (head82 t)). { repeat (constructor; [cbn [width_ok]; apply fits_le; [lia|assumption]|]). constructor. }
  assert (Hok : Forall okline (type_hdr 82 :: lines82 t)).
  { constructor; [assumption|]. unfold lines82. constructor; [|constructor; [apply text_ok_line; assumption|]].
    - apply (okline_cells [CI 10 (t_num t); CI 10 (Z.of_nat (length (t_nodes t)))] (CI 10 (t_color t))).
      + repeat constructor.
      + exact Wh.
      + cbn [last_ok]. split; [lia|assumption].
      + cbn. lia.
    - rewrite Forall_map, Forall_forall. intros r Hr. apply (row82_ok t); assumption. }
  constructor; [|assumption|assumption|].
  - rewrite (set_items_text c m fd d (VInt 82) Hty Hdat). change (write_dispatch c m fd (VInt 82) d) with (write82 d). unfold write82.
    cbn [wp_items]. set (d1 := opt_fields d _).
    assert (Hn1 : ix d1 "nodes" = Ok (VArr dt vs)). { unfold ix, d1. rewrite opt_fields_get, Hnodes. reflexivity. }
    assert (Hc : has as_int d1 "color" (t_color t)) by (eapply has_opt_or; [exact Hcol|reflexivity|reflexivity]).
    assert (Hi : has as_txt d1 "id" (t_id t)) by (eapply has_opt_or; [exact Hid|reflexivity|reflexivity]).
    assert (Hk : has as_int d1 "trace_num" (t_num t)) by (apply has_opt; assumption).
    rewrite Hn1. assert (Hlen := Forall2_len _ _ _ _ _ H2).
    assert (Hvn : vs <> []) by (intros ->; destruct (t_nodes t); [congruence|discriminate]).
    rewrite (changes_steps vs Hst Hvn), Hlen.
    set (n := length (t_nodes t)). set (r8 := rows8 (n / 8) vs).
    set (tl := if Nat.ltb 0 (n mod 8) then [row10 (skipn (8 * (n / 8)) vs)] else []).
    assert (G : writes (hdr_lines 82 :: txt "%10i%10i%10i\n" [ix d1 "trace_num"; I (Z.of_nat n); ix d1 "color"]
       :: txt "%-80s\n" [ix d1 "id"] :: r8 ++ tl ++ [end_line]) (TLINE ++ unlines (type_hdr 82 :: lines82 t) ++ TLINE)).
    { rewrite hdr_writes. unfold lines82. rewrite !unlines_cons'.
      eapply writes_eq.
      { apply writes_consr; [reflexivity|].
        apply (writes_line _ _ (head82 t)); [reflexivity| |].
        { cbn [head82 cells_args app]. repeat split; [apply has_gi; assumption|apply has_gi; assumption]. }
        apply (writes_line _ _ [CS true 80 (t_id t)]); [reflexivity| |].
        { cbn [cells_args app]. split; [apply has_gs; assumption|exact Logic.I]. }
        apply writes_app; [apply (rows8_ok _ vs (t_nodes t)); assumption|].
        apply writes_app; [|exact end_writes].
        instantiate (1 := unlines (map row82 (if Nat.ltb 0 (n mod 8) then [skipn (8 * (n / 8)) (t_nodes t)] else []))).
        unfold tl. destruct (Nat.ltb 0 (n mod 8)); [|constructor]. cbn [map]. rewrite unlines_one.
        rewrite (row10_ok _ (skipn (8 * (n / 8)) (t_nodes t))) by (apply Forall2_skipn; assumption). apply writes_one. reflexivity. }
      unfold rows_of. fold n. rewrite map_app, unlines_app. unfold type_hdr. unfold cells_text at 2. cbn [map concat cell_text]. rewrite app_nil_r.
      rewrite <- !app_assoc. reflexivity. }
    destruct Hdt as [-> | ->]; exact G.
  - intros block _ Hb. unfold extract_set. rewrite Hb. cbn [Z.eqb Pos.eqb]. unfold extract82.
    rewrite split_text by assumption. unfold lines82. cbn [map ln nth_error of_option rbind skipn].
    rewrite (header_segs (map cell_text (head82 t)) [LF] _ 3 _ [] _ _
      [Some (VInt (t_num t)); Some (VInt (Z.of_nat (length (t_nodes t)))); Some (VInt (t_color t))]).
    + cbn [rbind]. rewrite header_str80. cbn [rbind].
      change (join (map (fun l => l ++ [LF]) (map row82 (rows_of 8 (t_nodes t))))) with (unlines (map row82 (rows_of 8 (t_nodes t)))).
      rewrite split_unlines.
      assert (Ef : flat_map split (map row82 (rows_of 8 (t_nodes t))) = map dec_Z (t_nodes t)).
      { rewrite flat_map_concat_map, map_map. rewrite <- (rows_concat Z 8 (t_nodes t) ltac:(lia)) at 2. rewrite concat_map. f_equal.
        apply map_ext_in. intros r Hr. apply (row82_ok t); assumption. }
      rewrite Ef. assert (Ep : parse_floats (map dec_Z (t_nodes t)) = Ok (map float_of_Z (t_nodes t))).
      { unfold parse_floats, rmap. rewrite map_map. apply rseq_map_ok. intros z _. apply py_float_dec. }
      rewrite Ep. reflexivity.
    + reflexivity.
    + reflexivity.
    + rewrite app_nil_r. rewrite cells_lengths by assumption. reflexivity.
    + reflexivity.
    + reflexivity.
    + reflexivity.
    + cbn. lia.
    + cbn [head82 map cell_text combine app length repeat].
      repeat (constructor; [cbn [fst snd]; apply fv_int|]). constructor.
Qed.
