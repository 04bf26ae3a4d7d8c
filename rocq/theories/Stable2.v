(** Writing what was read, continued: 55, 2414. *)
From Verif Require Import PyBase PyNum PyVal Utf8 Tools DsNodes DsHeaders DsGroups Ds55 Ds58 Ds2414 Uff Facts IntFacts FloatFacts DecFacts FloatText FloatExact
  CplxFacts DictFacts Scan Container Append ContainerThms Utf8Facts Lines Stored Cells Rows RtNodes RtCs RtHeads RtElems RtGroups RtNodal RtFun RtFunSet RtAnalysis SubFacts PropReread Stable.
From Coq Require Import Lia.
Open Scope nat_scope.
Open Scope list_scope.

Lemma rd5_okf : forall f, okf f -> okf (rd 5 f).
Proof. intros f H. apply rd5_valid. exact H. Qed.
Lemma rd5_okfin : forall f, okfin f -> okfin (rd 5 f).
Proof. intros f [V F]. split; [apply rd5_valid; exact V|apply rd_finite; [exact short5|exact V|exact F]]. Qed.
Lemma all_map : forall (P : float -> Prop) (g : float -> float) l, (forall f, P f -> P (g f)) -> Forall P l -> Forall P (map g l).
Proof. intros P g l H F. rewrite Forall_map. eapply Forall_impl; [|exact F]. exact H. Qed.
Lemma rec8_round : forall m, rec8 (round_modes m) = map (rd 5) (rec8 m).
Proof. intros [| |]; reflexivity. Qed.
Lemma tidy_rec8 : forall m, tidy_modes m -> Forall normalf (rec8 m).
Proof. intros [| |] H; cbn [tidy_modes] in H; [exact H|exact H|apply plus0_normal; exact H]. Qed.

Definition mid55 (r : data55) : dict :=
  [(KS "model_type", VInt (v_model r)); (KS "analysis_type", VInt (analysis (v_modes r))); (KS "data_ch", VInt (v_ch r));
   (KS "spec_data_type", VInt (v_spec r)); (KS "data_type", VInt (dtype55 (v_kind r))); (KS "n_data_per_node", VInt (per_node (v_kind r)))].
Lemma cplx_entry : forall a b, loose a -> loose b -> as_cplx (r6c (a, b)) (rd2 (a, b)).
Proof. intros a b Ha Hb. rewrite r6c_loose by assumption. split; reflexivity. Qed.
Lemma modal_entry : forall a b, loose a -> loose b -> as_modal (r6c (a, b)) (rd2 (a, b)).
Proof. intros a b Ha Hb. exists (r6c (a, b)). split; [reflexivity|]. apply cplx_entry; assumption. Qed.
Lemma is_num_VInt : forall z, is_num (VInt z) z.
Proof. intro z. split; reflexivity. Qed.
Lemma analysis_round : forall m, analysis (round_modes m) = analysis m.
Proof. intros [| |]; reflexivity. Qed.

Definition loose_modes (m : modes) : Prop := match m with Complex _ _ _ _ _ _ => Forall loose (rec8 m) | _ => True end.
Definition loose_rows (k : kind55) (rows : list (Z * list float)) : Prop := match k with Cplx3 => Forall (fun w => Forall loose (snd w)) rows | _ => True end.
Definition loose55 (r : data55) : Prop := Forall (trim 80) (v_ids r) /\ loose_modes (v_modes r) /\ loose_rows (v_kind r) (v_rows r).
Lemma tidy_loose55 : forall r, tidy55 r -> loose55 r.
Proof.
  intros r (T1 & T2 & T3). split; [exact T1|]. split.
  - unfold loose_modes. destruct (v_modes r); try exact Logic.I. apply plus0_loose. exact T2.
  - unfold loose_rows. destruct (v_kind r); try exact Logic.I. eapply Forall_impl; [|exact T3]. intros w. apply plus0_loose.
Qed.
Lemma again55 : forall r, length (v_ids r) = 5 -> wf55 r -> loose55 r -> repr55 (read55 r) (round55 r).
Proof.
  intros [ids model ch spec md kd rows] Hi W (T1 & T2 & T3). destruct W as (W1 & W2 & W3 & W4).
  cbn [v_ids v_model v_ch v_spec v_modes v_kind v_rows] in *.
  destruct ids as [|s0 [|s1 [|s2 [|s3 [|s4 [|? ?]]]]]]; try discriminate.
  assert (Nn : forall k, np_int_list k = VArr (match k with [] => DFloat | _ => DInt end) (map VInt k)) by (intros [|? ?]; reflexivity).
  assert (I : Forall2 (fun k s => has_or as_txt (read55 {| v_ids := [s0; s1; s2; s3; s4]; v_model := model; v_ch := ch; v_spec := spec; v_modes := md; v_kind := kd; v_rows := rows |}) k s (lit "NONE"))
      id_keys [s0; s1; s2; s3; s4]).
  { repeat match goal with H : Forall (trim 80) (_ :: _) |- _ => inversion H; clear H; subst end. unfold id_keys.
    repeat (constructor; [left; entry; unfold as_txt; cbn [to_str]; f_equal; apply trim_read; assumption|]). constructor. }
  unfold repr55. cbn [round55 v_ids v_model v_ch v_spec v_modes v_kind v_rows]. rewrite analysis_round.
  split; [reflexivity|]. split; [destruct md, kd; reflexivity|]. split; [exact I|]. clear I.
  split; [left; entry; reflexivity|]. split; [entry; apply is_num_VInt|]. split; [entry; reflexivity|]. split; [entry; reflexivity|].
  split; [|split].
  - destruct md as [lc n f mm vi hi|lc n f|s lc n e a b]; cbn [round_modes repr_modes].
    + repeat split; try (left; entry; reflexivity); entry; reflexivity.
    + repeat split; entry; reflexivity.
    + destruct e as [e1 e2], a as [a1 a2], b as [b1 b2]. cbn [loose_modes rec8 fst snd] in T2.
      repeat match goal with H : Forall loose (_ :: _) |- _ => inversion H; clear H; subst end.
      split; [entry; reflexivity|]. split; [entry; reflexivity|]. split; [entry; apply cplx_entry; assumption|].
      split; left; entry; apply modal_entry; assumption.
  - rewrite map_map. cbn [round_row fst]. exists (np_int_list (map fst rows)). split; [destruct md; reflexivity|].
    rewrite Nn. rewrite map_map. apply seq_arr. reflexivity.
  - destruct kd; cbn [repr_rows].
    + split; [destruct md; reflexivity|].
      split; [exists (real_out 0 rows); split; [destruct md; reflexivity|split; [reflexivity|apply real_again]]|].
      split; [exists (real_out 1 rows)|exists (real_out 2 rows)]; (split; [destruct md; reflexivity|apply real_again]).
    + split; [exists (real_out 0 rows); split; [destruct md; reflexivity|split; [reflexivity|apply real_again]]|].
      split; [exists (real_out 1 rows); split; [destruct md; reflexivity|apply real_again]|].
      split; [exists (real_out 2 rows); split; [destruct md; reflexivity|apply real_again]|].
      split; [exists (real_out 3 rows); split; [destruct md; reflexivity|apply real_again]|].
      split; [exists (real_out 4 rows)|exists (real_out 5 rows)]; (split; [destruct md; reflexivity|apply real_again]).
    + split; [destruct md; reflexivity|].
      split; [exists (cplx_out 0 rows); split; [destruct md; reflexivity|split; [reflexivity|apply cplx_again; assumption]]|].
      split; [exists (cplx_out 1 rows)|exists (cplx_out 2 rows)]; (split; [destruct md; reflexivity|apply cplx_again; assumption]).
Qed.
Lemma wf_round55 : forall r, wf55 r -> wf55 (round55 r).
Proof.
  intros r (W1 & W2 & W3 & W4). unfold wf55. cbn [round55 v_ids v_model v_ch v_spec v_modes v_kind v_rows].
  split; [assumption|]. split; [assumption|]. split.
  - destruct (v_modes r) as [lc n f mm vi hi|lc n f|s lc n e a b]; cbn [wf_modes round_modes] in *.
    + destruct W3 as (A & B & C & D). repeat (split; [assumption|]). apply (all_map okf (rd 5) _ rd5_okf) in D. exact D.
    + destruct W3 as (A & B & C & D). repeat (split; [assumption|]). apply rd5_okf. exact D.
    + destruct W3 as (A & B & C & D). repeat (split; [assumption|]). apply (all_map okfin (rd 5) _ rd5_okfin) in D. exact D.
  - rewrite Forall_map. eapply Forall_impl; [|exact W4]. intros w (A & B & C & D). unfold round_row. cbn [fst snd]. rewrite map_length.
    repeat (split; [assumption|]). destruct (v_kind r); apply all_map; auto using rd5_okf, rd5_okfin.
Qed.
Lemma row_lines_rd : forall w, Forall normalf (snd w) -> row_lines (round_row w) = row_lines w.
Proof. intros w H. unfold row_lines, round_row. cbn [fst snd]. rewrite fcells_rd by assumption. reflexivity. Qed.
Lemma rows_lines_rd : forall rows, Forall (fun w => Forall normalf (snd w)) rows -> flat_map row_lines (map round_row rows) = flat_map row_lines rows.
Proof. intros rows H. induction H as [|w rows Hw _ IH]; [reflexivity|]. cbn [map flat_map]. rewrite row_lines_rd by assumption. f_equal. exact IH. Qed.
Lemma lines_round55 : forall r, tidy55 r -> lines55 (round55 r) = lines55 r.
Proof.
  intros r (T1 & T2 & T3). unfold lines55. cbn [round55 v_ids v_model v_ch v_spec v_modes v_kind v_rows].
  rewrite rec8_round, fcells_rd by (apply tidy_rec8; assumption). rewrite rows_lines_rd.
  - unfold head55. cbn [round55 v_ids v_model v_ch v_spec v_modes v_kind v_rows]. rewrite analysis_round. destruct (v_modes r); reflexivity.
  - eapply Forall_impl; [|exact T3]. intros w H. destruct (v_kind r); try exact H. apply plus0_normal. exact H.
Qed.
Lemma same55 : forall c m fd d r, repr55 d r -> wf55 r -> tidy55 r -> recopies c m fd d (read55 r).
Proof.
  intros c m fd d r R W T. assert (Hi : length (v_ids r) = 5).
  { destruct R as (_ & _ & R & _). apply Forall2_len in R. symmetry. exact R. }
  intros c' m' fd'; eapply text_set_again; [exact (set55 c m fd false d r R W)|]. rewrite <- (lines_round55 r T).
  exact (set55 c' m' fd' false _ _ (again55 r Hi W (tidy_loose55 r T)) (wf_round55 r W)).
Qed.

(* ------------------------------------------------------------------ *)
(** ** 2414 *)

Definition round_on (el : on_elem) : on_elem :=
  {| o_num := o_num el; o_exp := o_exp el; o_nodes := o_nodes el; o_per := o_per el; o_rows := map (map (rd 5)) (o_rows el) |}.
Definition round_body (b : ana_body) : ana_body :=
  match b with
  | AFreq rows => AFreq (map round_row rows) | ANodes rows => ANodes (map round_row rows) | AElems rows => AElems (map round_row rows)
  | AOn els => AOn (map round_on els) | ANone => ANone
  end.
Definition round2414 (a : ana) : ana :=
  {| n_label := n_label a; n_name := n_name a; n_loc := n_loc a; n_ids := n_ids a; n_model := n_model a; n_an := n_an a; n_dc := n_dc a;
     n_rt := n_rt a; n_dt := n_dt a; n_nv := n_nv a; n_r10 := n_r10 a; n_r11 := n_r11 a; n_r12 := map (rd 5) (n_r12 a); n_r13 := map (rd 5) (n_r13 a);
     n_body := round_body (n_body a) |}.
(** Frequency response data is read for data type 5 only. *)
Definition tidy_body (dt : Z) (b : ana_body) : Prop :=
  match b with
  | AFreq rows => dt = 5%Z /\ Forall (fun w => Forall plus0 (snd w)) rows
  | ANodes rows | AElems rows => Forall (fun w => Forall normalf (snd w)) rows
  | AOn els => Forall (fun el => Forall (Forall normalf) (o_rows el)) els
  | ANone => True
  end.
Definition tidy2414 (a : ana) : Prop :=
  trim 80 (n_name a) /\ Forall (trim 80) (n_ids a) /\ Forall normalf (n_r12 a) /\ Forall normalf (n_r13 a) /\ tidy_body (n_dt a) (n_body a).

(** Eleven characters are not enough for a subnormal number. *)
Lemma w11_normal : forall f, w11 f -> normalf f.
Proof.
  intros f [V L]. split; [exact V|]. destruct (f_normal f) eqn:En; [reflexivity|]. exfalso. destruct (sub_form f V En) as (s & m & -> & Hm).
  assert (X := sub_len s m Hm). destruct s; lia.
Qed.
Lemma w11_rd : forall f, w11 f -> w11 (rd 5 f).
Proof. intros f W. assert (N := w11_normal f W). destruct W as [V L]. split; [apply rd5_valid; exact V|]. rewrite rd5_text by assumption. exact L. Qed.
Lemma w12_rd : forall f, w12 f -> w12 (rd 5 f).
Proof.
  intros f [V L]. split; [apply rd5_valid; exact V|]. assert (X : narrow 5 f = true) by (apply Nat.leb_le; lia).
  apply narrow_again in X; [|exact V]. apply Nat.leb_le in X. lia.
Qed.
Lemma is_freq_round : forall b, is_freq (round_body b) = is_freq b.
Proof. intros []; reflexivity. Qed.
Lemma wf_round2414 : forall a, wf2414 a -> wf2414 (round2414 a).
Proof.
  intros a (W1 & W2 & W3 & W4 & W5 & W6 & W7 & W8 & W9 & W10 & W11 & W12). unfold wf2414.
  cbn [round2414 n_label n_name n_loc n_ids n_model n_an n_dc n_rt n_dt n_nv n_r10 n_r11 n_r12 n_r13 n_body].
  do 8 (split; [assumption|]). split; [apply (all_map w11 (rd 5) _ w11_rd); assumption|].
  split; [apply (all_map w11 (rd 5) _ w11_rd); assumption|]. split.
  - unfold kind_ok in *. cbn [round2414 n_body n_an n_loc]. destruct (n_body a); exact W11.
  - destruct (n_body a) as [rows|rows|rows|els|]; cbn [wf_body round_body] in *.
    + destruct W12 as [A B]. split; [exact A|]. rewrite Forall_map. rewrite Forall_forall in *. intros w Hw. destruct (B w Hw) as (B1 & B2 & B3 & B4).
      unfold round_row. cbn [fst snd]. rewrite map_length. repeat (split; [assumption|]). apply all_map; [|exact B4].
      intros f [F1 F2]. split; [apply w12_rd; assumption|]. apply rd_finite; [exact short5|apply F1|exact F2].
    + destruct W12 as [A B]. split; [destruct rows; [congruence|discriminate]|]. rewrite Forall_map. rewrite Forall_forall in *. intros w Hw.
      destruct (B w Hw) as (B1 & B2 & B3). unfold round_row. cbn [fst snd]. repeat (split; [assumption|]). apply (all_map w12 (rd 5) _ w12_rd); auto.
    + destruct W12 as [A B]. split; [destruct rows; [congruence|discriminate]|]. rewrite Forall_map. rewrite Forall_forall in *. intros w Hw.
      destruct (B w Hw) as (B1 & B2 & B3). unfold round_row. cbn [fst snd]. rewrite map_length. repeat (split; [assumption|]). apply (all_map w12 (rd 5) _ w12_rd); auto.
    + rewrite Forall_map. rewrite Forall_forall in *. intros el Hel. destruct (W12 el Hel) as (B1 & B2 & B3 & B4 & B5). unfold lines_of, round_on in *.
      cbn [o_num o_exp o_nodes o_per o_rows]. rewrite map_length. repeat (split; [assumption|]). rewrite Forall_map.
      rewrite Forall_forall in *. intros l Hl. apply (all_map w12 (rd 5) _ w12_rd); auto.
    + exact W12.
Qed.
Lemma lines_round2414 : forall a, tidy2414 a -> lines2414 (round2414 a) = lines2414 a.
Proof.
  intros a (T1 & T2 & T3 & T4 & T5). unfold lines2414, head_lines, head9.
  cbn [round2414 n_label n_name n_loc n_ids n_model n_an n_dc n_rt n_dt n_nv n_r10 n_r11 n_r12 n_r13 n_body].
  rewrite !fcells_rd by assumption. f_equal. destruct (n_body a) as [rows|rows|rows|els|]; cbn [body_lines round_body tidy_body] in *.
  - apply rows_lines_rd. eapply Forall_impl; [|apply T5]. intros w H. apply plus0_normal. exact H.
  - apply rows_lines_rd. exact T5.
  - induction T5 as [|w rows Hw _ IH]; [reflexivity|]. cbn [map flat_map]. f_equal; [|exact IH]. unfold el_lines, el_head, round_row. cbn [fst snd].
    rewrite map_length, fcells_rd by assumption. reflexivity.
  - induction T5 as [|el els Hw _ IH]; [reflexivity|]. cbn [map flat_map]. f_equal; [|exact IH]. unfold on_lines, on_head, round_on. cbn [o_num o_exp o_nodes o_per o_rows].
    f_equal. rewrite map_map. apply map_ext_in. intros l Hl. rewrite Forall_forall in Hw. apply fcells_rd. auto.
  - reflexivity.
Qed.

Lemma frow_again : forall l, seq_of as_flt (frow l) (map (rd 5) l).
Proof. intro l. unfold frow, vfloats. rewrite map_map. apply seq_arr. reflexivity. Qed.
Lemma vints_again : forall A (f : A -> Z) l, arr_of as_int (vints (map f l)) (map f l).
Proof. intros A f l. split; [do 2 eexists; reflexivity|]. unfold vints. rewrite map_map. apply seq_arr. reflexivity. Qed.
Lemma vints_again' : forall A (f : A -> Z) l, arr_of as_intc (vints (map f l)) (map f l).
Proof. intros A f l. split; [do 2 eexists; reflexivity|]. unfold vints. rewrite map_map. apply seq_arr. reflexivity. Qed.
Lemma rows_again : forall rows, seq_of (seq_of as_flt) (VList (map (fun w : Z * list float => frow (snd w)) rows)) (map snd (map round_row rows)).
Proof. intro rows. rewrite map_map. apply seq_list. intros w _. apply frow_again. Qed.
Ltac open5 H := match type of H with
  | _ = length ?l => destruct l as [|? [|? [|? [|? [|? [|? ?]]]]]]; try discriminate; clear H end.
Ltac open2 H := match type of H with _ = length ?l => destruct l as [|? [|? [|? ?]]]; try discriminate; clear H end.
Ltac open6 H := match type of H with
  | _ = length ?l => destruct l as [|? [|? [|? [|? [|? [|? [|? ?]]]]]]]; try discriminate; clear H end.
Ltac open8 H := match type of H with
  | _ = length ?l => destruct l as [|? [|? [|? [|? [|? [|? [|? [|? [|? ?]]]]]]]]]; try discriminate; clear H end.
Definition lens2414 (a : ana) : Prop :=
  5 = length (n_ids a) /\ 8 = length (n_r10 a) /\ (if is_freq (n_body a) then 2 else 8) = length (n_r11 a) /\ 6 = length (n_r12 a) /\ 6 = length (n_r13 a).
Lemma repr_lens : forall d a, repr2414 d a -> lens2414 a.
Proof.
  intros d a (_ & _ & _ & _ & _ & R1 & _ & _ & _ & _ & _ & _ & R2 & R3 & R4 & R5 & _).
  apply Forall2_len in R1, R2, R3, R4, R5. unfold lens2414. unfold k10, k11, k12, k13 in *. destruct (is_freq (n_body a)); auto.
Qed.
Definition loose_body (dt : Z) (b : ana_body) : Prop :=
  match b with AFreq rows => dt = 5%Z /\ Forall (fun w => Forall loose (snd w)) rows | _ => True end.
Definition loose2414 (a : ana) : Prop := trim 80 (n_name a) /\ Forall (trim 80) (n_ids a) /\ loose_body (n_dt a) (n_body a).
Lemma tidy_loose2414 : forall a, tidy2414 a -> loose2414 a.
Proof.
  intros a (T1 & T2 & _ & _ & T5). split; [exact T1|]. split; [exact T2|]. unfold loose_body. destruct (n_body a); try exact Logic.I.
  destruct T5 as [E T5]. split; [exact E|]. eapply Forall_impl; [|exact T5]. intros w. apply plus0_loose.
Qed.
Lemma again2414 : forall a, lens2414 a -> wf2414 a -> loose2414 a -> repr2414 (read2414 a) (round2414 a).
Proof.
  intros [label name loc ids model an dc rt dt nv r10 r11 r12 r13 body] L W (T1 & T2 & T5).
  destruct W as (_ & _ & _ & _ & _ & _ & _ & _ & _ & _ & _ & W12).
  unfold lens2414 in L. cbn [n_label n_name n_loc n_ids n_model n_an n_dc n_rt n_dt n_nv n_r10 n_r11 n_r12 n_r13 n_body] in *.
  destruct L as (L1 & L2 & L3 & L4 & L5). open5 L1. open8 L2. open6 L4. open6 L5.
  unfold repr2414. cbn [round2414 n_label n_name n_loc n_ids n_model n_an n_dc n_rt n_dt n_nv n_r10 n_r11 n_r12 n_r13 n_body].
  assert (F : is_freq body = true /\ 2 = length r11 \/ is_freq body = false /\ 8 = length r11) by (destruct (is_freq body); auto).
  clear L3. unfold k10, k11, k12, k13. rewrite is_freq_round.
  unfold read2414, recs_out, k10, k11, k12, k13. cbn [n_label n_name n_loc n_ids n_model n_an n_dc n_rt n_dt n_nv n_r10 n_r11 n_r12 n_r13 n_body].
  set (ob := out_body nv dt body).
  assert (Hd : dget ob (KS "data") = None).
  { unfold ob. destruct body; cbn [out_body]; try reflexivity. destruct T5 as [-> _]. change (5 =? 5)%Z with true. cbv iota.
    destruct (2 <=? nv)%Z, (3 <=? nv)%Z; reflexivity. }
  repeat match goal with H : Forall (trim 80) (_ :: _) |- _ => inversion H; clear H; subst end.
  assert (B : forall k v, dget ob (KS k) = Some v -> True) by auto. clear B.
  destruct F as [[F L3]|[F L3]]; rewrite F; [open2 L3|open8 L3]; cbv iota.
  - split; [reflexivity|]. split; [exact Hd|]. split; [entry; reflexivity|].
    split; [entry; unfold as_txt; cbn [to_str]; f_equal; apply trim_read; assumption|].
    split; [entry; apply is_num_VInt|].
    split; [unfold id_keys; repeat (constructor; [entry; unfold as_txt; cbn [to_str]; f_equal; apply trim_read; assumption|]); constructor|].
    split; [entry; reflexivity|]. split; [entry; apply is_num_VInt|]. split; [entry; reflexivity|]. split; [entry; reflexivity|]. split; [entry; reflexivity|].
    split; [entry; apply is_num_VInt|].
    do 4 (split; [cbn [map field]; repeat (constructor; [entry; reflexivity|]); constructor|]).
    destruct body as [rows|rows|rows|els|]; try discriminate. destruct T5 as [-> T5]. cbn [repr_body round_body].
    unfold ob, out_body. change (5 =? 5)%Z with true. cbv iota. rewrite map_map. cbn [round_row fst].
    split; [entry; apply vints_again'|]. split; [entry; apply cplx_again; assumption|]. split; intro Hn.
    + exists (cplx_out 1 rows). rewrite (proj2 (Z.leb_le 2 nv)) by assumption. split; [reflexivity|apply cplx_again; assumption].
    + exists (cplx_out 2 rows). rewrite (proj2 (Z.leb_le 2 nv)) by lia. rewrite (proj2 (Z.leb_le 3 nv)) by assumption. split; [reflexivity|apply cplx_again; assumption].
  - split; [reflexivity|]. split; [exact Hd|]. split; [entry; reflexivity|].
    split; [entry; unfold as_txt; cbn [to_str]; f_equal; apply trim_read; assumption|].
    split; [entry; apply is_num_VInt|].
    split; [unfold id_keys; repeat (constructor; [entry; unfold as_txt; cbn [to_str]; f_equal; apply trim_read; assumption|]); constructor|].
    split; [entry; reflexivity|]. split; [entry; apply is_num_VInt|]. split; [entry; reflexivity|]. split; [entry; reflexivity|]. split; [entry; reflexivity|].
    split; [entry; apply is_num_VInt|].
    do 4 (split; [cbn [map field]; repeat (constructor; [left; entry; reflexivity|]); constructor|]).
    destruct body as [rows|rows|rows|els|]; try discriminate; cbn [repr_body round_body]; unfold ob, out_body.
    + rewrite map_map. cbn [round_row fst]. split; [entry; apply vints_again|entry; apply rows_again].
    + rewrite map_map. cbn [round_row fst]. split; [entry; apply vints_again|entry; apply rows_again].
    + rewrite !map_map. cbn [round_on o_num o_exp o_nodes o_per o_rows].
      split; [entry; apply vints_again|]. do 3 (split; [entry; apply vints_again|]). entry. apply seq_list. intros el _.
      apply seq_list. intros l _. apply frow_again.
    + exact Logic.I.
Qed.
Lemma same2414 : forall c m fd d a, repr2414 d a -> wf2414 a -> tidy2414 a -> recopies c m fd d (read2414 a).
Proof.
  intros c m fd d a R W T. intros c' m' fd'; eapply text_set_again; [exact (set2414 c m fd false d a R W)|]. rewrite <- (lines_round2414 a T).
  exact (set2414 c' m' fd' false _ _ (again2414 a (repr_lens d a R) W (tidy_loose2414 a T)) (wf_round2414 a W)).
Qed.
