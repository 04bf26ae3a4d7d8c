(** Storing and reading back data sets 18 and 2420. *)
From Verif Require Import PyBase PyNum PyVal Utf8 Tools DsNodes DsHeaders Uff Facts IntFacts FloatFacts DecFacts FloatText FloatExact DictFacts
  Scan Container Append ContainerThms Utf8Facts Lines Stored Cells Rows RtNodes.
From Coq Require Import Lia.
Open Scope nat_scope.
Open Scope list_scope.

Lemma every_skip : forall A (a l : list A) k step, every (length a + k) step (a ++ l) = every k step l.
Proof. intros A a l k step. unfold every. induction a as [|x a IH]; [reflexivity|]. cbn [length Nat.add app every_aux]. assumption. Qed.

(* ------------------------------------------------------------------ *)
(** ** 18 *)

Definition point := (float * float * float)%type.
Definition pt_list (p : point) : list float := let '(x, y, z) := p in [x; y; z].
Definition as_pt (v : pyval) (p : point) : Prop := seq_of as_flt v (pt_list p).
Record cs18 := { c_num : Z; c_type : Z; c_ref : Z; c_color : Z; c_method : Z; c_name : str;
                 c_o : point; c_x : point; c_xz : point }.
Definition repr18 (d : dict) (l : list cs18) : Prop :=
  dget d (KS "type") = Some (VInt 18) /\ dget d (KS "data") = None /\
  has (seq_of as_intc) d "cs_num" (map c_num l) /\
  has_or (seq_of as_intc) d "cs_type" (map c_type l) (repeat 0%Z (length l)) /\
  has (seq_of as_intc) d "ref_cs_num" (map c_ref l) /\
  has_or (seq_of as_intc) d "color" (map c_color l) (repeat 0%Z (length l)) /\
  has_or (seq_of as_intc) d "method" (map c_method l) (repeat 1%Z (length l)) /\
  has_or (seq_of as_txt) d "cs_name" (map c_name l) (repeat [] (length l)) /\
  has (seq_of as_pt) d "ref_o" (map c_o l) /\ has (seq_of as_pt) d "x_point" (map c_x l) /\ has (seq_of as_pt) d "xz_point" (map c_xz l).
Definition ptv (p : point) : Prop := Forall (fun f => f_valid f = true) (pt_list p).
Definition wf18 (l : list cs18) : Prop :=
  Forall (fun c => Forall (fits 9) [c_num c; c_type c; c_ref c; c_color c; c_method c] /\ c_method c <> (-1)%Z /\
    text_ok (c_name c) /\ ptv (c_o c) /\ ptv (c_x c) /\ ptv (c_xz c)) l.
Definition rd_pts (l : list point) : pyval := VArr2 DFloat (map (fun p => map (fun f => VFloat (rd 5 f)) (pt_list p)) l).
Definition read18 (l : list cs18) : dict :=
  let ints f := vfloats (map (fun c => float_of_Z (f c)) l) in
  [(KS "type", VInt 18);
   (KS "cs_num", ints c_num); (KS "cs_type", ints c_type); (KS "ref_cs_num", ints c_ref); (KS "color", ints c_color);
   (KS "method", ints c_method);
   (KS "cs_name", VList (map (fun c => VStr (strip (c_name c))) l));
   (KS "ref_o", rd_pts (map c_o l)); (KS "x_point", rd_pts (map c_x l)); (KS "xz_point", rd_pts (map c_xz l))].

Definition ints18 (c : cs18) : list Z := [c_num c; c_type c; c_ref c; c_color c; c_method c].
Definition seg5 (f : float) : str := rjust 13 (fmt_e false 5 f).
Definition lines18 (c : cs18) : list str :=
  [cells_text (map (CI 10) (ints18 c)); ljust 40 (c_name c);
   cells_text (map (CE 13 5) (pt_list (c_o c) ++ pt_list (c_x c))); cells_text (map (CE 13 5) (pt_list (c_xz c)))].

Lemma has_pt : forall d k l i p j f, has (seq_of as_pt) d k l -> nth_error l i = Some p -> nth_error (pt_list p) j = Some f ->
  gf (at_ (at_ (ix d k) (Z.of_nat i)) (Z.of_nat j)) f.
Proof.
  intros d k l i p j f H Hi Hj. destruct (has_at _ _ _ _ _ _ _ H Hi) as (v & E & Hp).
  destruct (seq_at _ _ _ _ _ _ _ E Hp Hj) as (x & -> & Hx). exact Hx.
Qed.
Lemma has_intc_at : forall d k l i z, has (seq_of as_intc) d k l -> nth_error l i = Some z -> gi (int_arg (at_ (ix d k) (Z.of_nat i))) z.
Proof. intros d k l i z H Hi. destruct (has_at _ _ _ _ _ _ _ H Hi) as (v & E & Hp). eapply int_arg_gi; eauto. Qed.

Lemma lines18_ok : forall l c, wf18 l -> In c l -> Forall okline (lines18 c) /\
  split (cells_text (map (CI 10) (ints18 c))) = map dec_Z (ints18 c) /\ lead_ws (cells_text (map (CI 10) (ints18 c))).
Proof.
  intros l c Hw Hc. unfold wf18 in Hw. rewrite Forall_forall in Hw. destruct (Hw c Hc) as (W1 & W2 & W3 & W4 & W5 & W6).
  assert (Sp : Forall spaced_cell (map (CI 10) (ints18 c))).
  { rewrite Forall_map. eapply Forall_impl; [|exact W1]. intros z Hz. cbn [spaced_cell]. apply fits_lt with (k := 9); [lia|lia|assumption]. }
  assert (Wf : forall fs, Forall (fun f => f_valid f = true) fs -> Forall width_ok (map (CE 13 5) fs)).
  { intros fs H. rewrite Forall_map. eapply Forall_impl; [|exact H]. intros f Hf. cbn [width_ok]. apply fmt5_le. assumption. }
  assert (Fl : forall q f, Forall (fun f => f_valid f = true) (q ++ [f]) -> length q < 6 -> okline (cells_text (map (CE 13 5) (q ++ [f])))).
  { intros q f H Hq. assert (HW := Wf _ H). rewrite map_app in *. cbn [map] in *. apply okline_cells.
    - change [CE 13 5 f] with (map (CE 13 5) [f]). rewrite <- map_app, Forall_map. apply Forall_forall. intros x _. exact Logic.I.
    - assumption.
    - cbn [last_ok]. lia.
    - rewrite map_app, map_map. cbn [map cell_width]. rewrite list_sum_app. cbn [list_sum fold_right].
      assert (E : list_sum (map (fun _ : float => 13) q) = 13 * length q). { clear. unfold list_sum. induction q as [|x q IH]; [reflexivity|]. cbn [map length fold_right]. rewrite IH. lia. }
      rewrite E. lia. }
  split; [|split; [rewrite split_cells by assumption; rewrite map_map; reflexivity|apply cells_lead; assumption]].
  constructor; [|constructor; [apply text_ok_line; assumption|constructor; [|constructor; [|constructor]]]].
  - apply (okline_cells (map (CI 10) [c_num c; c_type c; c_ref c; c_color c]) (CI 10 (c_method c))).
    + repeat constructor.
    + eapply Forall_impl; [|exact Sp]. exact spaced_width.
    + cbn [last_ok]. split; [lia|assumption].
    + cbn. lia.
  - destruct (c_o c) as [[o1 o2] o3]. destruct (c_x c) as [[x1 x2] x3]. cbn [pt_list app].
    apply (Fl [o1; o2; o3; x1; x2] x3); [|cbn; lia]. unfold ptv in *. cbn [pt_list] in *.
    apply (Forall_app _ [o1; o2; o3] [x1; x2; x3]). auto.
  - destruct (c_xz c) as [[x1 x2] x3]. cbn [pt_list]. apply (Fl [x1; x2] x3); [exact W6|cbn; lia].
Qed.

(** Columns of three coordinates put together again. *)
Lemma zip3_points : forall A (f g h : A -> float) l, zip3 (map f l) (map g l) (map h l) = map (fun a => [f a; g a; h a]) l.
Proof. intros A f g h l. induction l as [|a l IH]; [reflexivity|]. cbn [map zip3]. rewrite IH. reflexivity. Qed.
Lemma stack3T_points : forall A (f g h : A -> float) l,
  stack3T (map f l) (map g l) (map h l) = Ok (VArr2 DFloat (map (fun a => map VFloat [f a; g a; h a]) l)).
Proof. intros A f g h l. unfold stack3T. rewrite !map_length, Nat.eqb_refl. cbn [andb]. rewrite zip3_points, map_map. reflexivity. Qed.

Lemma every18 : forall j k l g, j = 2 + k -> k < 4 -> (forall c, nth_error (lines18 c) k = Some (g c)) ->
  every j 4 (@cons str TAG (type_hdr 18 :: flat_map lines18 l)) = map g l.
Proof.
  intros j k l g -> Hk Hg. etransitivity; [exact (every_skip _ [TAG; type_hdr 18] (flat_map lines18 l) k 4)|]. apply every_table1; [assumption|]. intro c. split; [reflexivity|apply Hg].
Qed.
Lemma flat_map_map : forall A B C (f : B -> C) (g : A -> list B) l, map f (flat_map g l) = flat_map (fun a => map f (g a)) l.
Proof. intros A B C f g l. induction l as [|a l IH]; [reflexivity|]. cbn [flat_map]. rewrite map_app, IH. reflexivity. Qed.
Lemma join_floats : forall A (g : A -> list float) l,
  join (map (fun a => cells_text (map (CE 13 5) (g a))) l) = concat (map seg5 (flat_map g l)).
Proof.
  intros A g l. unfold join. induction l as [|a l IH]; [reflexivity|]. cbn [map concat flat_map]. rewrite IH, map_app, concat_app.
  unfold cells_text. rewrite map_map. reflexivity.
Qed.

Lemma set18 : forall c m fd ho d l, repr18 d l -> wf18 l -> text_set c m fd ho d 18 (type_hdr 18) (flat_map lines18 l) (read18 l).
Proof.
  intros c m fd ho d l (Hty & Hdat & R1 & R2 & R3 & R4 & R5 & R6 & R7 & R8 & R9) Hw.
  destruct (type_hdr_ok 18 ltac:(lia)) as [Ht Hh].
  assert (Hok : Forall okline (type_hdr 18 :: flat_map lines18 l)).
  { constructor; [assumption|]. rewrite Forall_forall. intros x Hx. apply in_flat_map in Hx as (n & Hn & Hx).
    destruct (lines18_ok l n Hw Hn) as [Ho _]. rewrite Forall_forall in Ho. auto. }
  constructor; [|assumption|assumption|].
  - rewrite (set_items_text c m fd d (VInt 18) Hty Hdat). change (write_dispatch c m fd (VInt 18) d) with (write18 d). unfold write18.
    rewrite (has_len _ _ _ _ _ R1), map_length. cbn [wp_items]. cbv zeta. set (d1 := opt_fields d _).
    rewrite hdr_writes, unlines_cons'. eapply writes_eq.
    { apply writes_consr; [reflexivity|]. apply writes_app; [|exact end_writes].
      apply (writes_rows _ _ lines18). intros i a Hi. unfold rec18, lines18. rewrite !unlines_cons'.
      assert (Q1 : has (seq_of as_intc) d1 "cs_num" (map c_num l)) by (apply has_opt; assumption).
      assert (Q2 : has (seq_of as_intc) d1 "cs_type" (map c_type l)).
      { eapply has_opt_or; [exact R2|reflexivity|]. exists (repeat (VInt 0) (length l)). split; [reflexivity|]. apply seq_of_repeat. reflexivity. }
      assert (Q3 : has (seq_of as_intc) d1 "ref_cs_num" (map c_ref l)) by (apply has_opt; assumption).
      assert (Q4 : has (seq_of as_intc) d1 "color" (map c_color l)).
      { eapply has_opt_or; [exact R4|reflexivity|]. exists (repeat (VInt 0) (length l)). split; [reflexivity|]. apply seq_of_repeat. reflexivity. }
      assert (Q5 : has (seq_of as_intc) d1 "method" (map c_method l)).
      { eapply has_opt_or; [exact R5|reflexivity|]. exists (repeat (VInt 1) (length l)). split; [reflexivity|]. apply seq_of_repeat. reflexivity. }
      assert (Q6 : has (seq_of as_txt) d1 "cs_name" (map c_name l)).
      { eapply has_opt_or; [exact R6|reflexivity|]. exists (repeat (VStr []) (length l)). split; [reflexivity|]. apply seq_of_repeat. reflexivity. }
      assert (Q7 : has (seq_of as_pt) d1 "ref_o" (map c_o l)) by (apply has_opt; assumption).
      assert (Q8 : has (seq_of as_pt) d1 "x_point" (map c_x l)) by (apply has_opt; assumption).
      assert (Q9 : has (seq_of as_pt) d1 "xz_point" (map c_xz l)) by (apply has_opt; assumption).
      clearbody d1. cbv zeta.
      assert (Pt : forall k g, has (seq_of as_pt) d1 k (map g l) -> exists x y z, g a = (x, y, z) /\
          gf (at_ (at_ (ix d1 k) (Z.of_nat i)) 0) x /\ gf (at_ (at_ (ix d1 k) (Z.of_nat i)) 1) y /\ gf (at_ (at_ (ix d1 k) (Z.of_nat i)) 2) z).
      { intros k g Hk. destruct (g a) as [[x y] z] eqn:Eg. exists x, y, z. split; [reflexivity|].
        assert (Hn := nth_map _ _ g _ _ _ Hi). rewrite Eg in Hn.
        split; [|split]; [apply (has_pt _ _ _ _ _ 0 _ Hk Hn)|apply (has_pt _ _ _ _ _ 1 _ Hk Hn)|apply (has_pt _ _ _ _ _ 2 _ Hk Hn)]; reflexivity. }
      destruct (Pt _ _ Q7) as (o1 & o2 & o3 & Eo & O1 & O2 & O3). destruct (Pt _ _ Q8) as (x1 & x2 & x3 & Ex & X1 & X2 & X3).
      destruct (Pt _ _ Q9) as (z1 & z2 & z3 & Ez & Z1 & Z2 & Z3). rewrite Eo, Ex, Ez. cbn [pt_list app].
      apply (writes_line _ _ (map (CI 10) (ints18 a))); [reflexivity| |].
      { cbn [ints18 map cells_args app]. repeat split; (eapply has_intc_at; [eassumption|apply nth_map; assumption]). }
      replace (ljust 40 (c_name a)) with (cells_text [CS true 40 (c_name a)]) by (unfold cells_text; cbn [map concat cell_text]; apply app_nil_r).
      apply (writes_line _ _ [CS true 40 (c_name a)]); [reflexivity| |].
      { cbn [cells_args app]. split; [|exact Logic.I]. eapply has_gs_at; [eassumption|apply nth_map; assumption]. }
      apply (writes_line _ _ (map (CE 13 5) [o1; o2; o3; x1; x2; x3])); [reflexivity| |].
      { cbn [map cells_args app]. auto 10. }
      apply (writes_line _ _ (map (CE 13 5) [z1; z2; z3])); [reflexivity| |constructor].
      cbn [map cells_args app]. auto 10. }
    unfold type_hdr. rewrite <- !app_assoc. reflexivity.
  - intros block _ Hb. unfold extract_set. rewrite Hb. cbn [Z.eqb Pos.eqb]. unfold extract18.
    rewrite split_text by assumption. cbv beta iota zeta.
    every_is (every18 2 0 l (fun c => cells_text (map (CI 10) (ints18 c))) eq_refl ltac:(lia) (fun _ => eq_refl)).
    every_is (every18 3 1 l (fun c => ljust 40 (c_name c)) eq_refl ltac:(lia) (fun _ => eq_refl)).
    every_is (every18 4 2 l (fun c => cells_text (map (CE 13 5) (pt_list (c_o c) ++ pt_list (c_x c)))) eq_refl ltac:(lia) (fun _ => eq_refl)).
    every_is (every18 5 3 l (fun c => cells_text (map (CE 13 5) (pt_list (c_xz c)))) eq_refl ltac:(lia) (fun _ => eq_refl)).
    assert (Hlead : Forall lead_ws (map (fun c => cells_text (map (CI 10) (ints18 c))) l)).
    { rewrite Forall_map, Forall_forall. intros a Ha. apply (lines18_ok l a Hw Ha). }
    change (join (map (fun c0 => cells_text (map (CI 10) (ints18 c0))) l)) with (concat (map (fun c0 => cells_text (map (CI 10) (ints18 c0))) l)).
    rewrite split_concat by assumption.
    assert (Ef : flat_map split (map (fun c => cells_text (map (CI 10) (ints18 c))) l) = map dec_Z (flat_map ints18 l)).
    { rewrite flat_map_map. rewrite !flat_map_concat_map, map_map. f_equal. apply map_ext_in. intros a Ha. apply (lines18_ok l a Hw Ha). }
    rewrite Ef. assert (Ep : parse_floats (map dec_Z (flat_map ints18 l)) = Ok (map float_of_Z (flat_map ints18 l))).
    { unfold parse_floats, rmap. rewrite map_map. apply rseq_map_ok. intros z _. apply py_float_dec. }
    rewrite Ep. cbn [rbind].
    rewrite (join_floats _ (fun c => pt_list (c_o c) ++ pt_list (c_x c))). unfold seg5. rewrite fixed_floats_ok.
    2:{ apply Forall_fm. unfold wf18 in Hw. eapply Forall_impl; [|exact Hw]. intros a (_ & _ & _ & H1 & H2 & _). apply Forall_app. auto. }
    cbn [rbind]. rewrite (flat_map_map _ _ _ (rd 5) (fun c => pt_list (c_o c) ++ pt_list (c_x c))).
    set (tab := flat_map (fun a => map (rd 5) (pt_list (c_o a) ++ pt_list (c_x a))) l).
    set (co := fun j a => rd 5 (nth j (pt_list (c_o a)) f_zero)). set (cx := fun j a => rd 5 (nth j (pt_list (c_x a)) f_zero)).
    assert (Eo : forall j, j < 3 -> every j 6 tab = map (co j) l).
    { intros j Hj. unfold tab. apply every_table1; [lia|]. intro a. destruct (c_o a) as [[o1 o2] o3] eqn:E1. destruct (c_x a) as [[x1 x2] x3].
      unfold co. rewrite E1. cbn [pt_list app map length]. split; [reflexivity|]. destruct j as [|[|[|j]]]; [reflexivity|reflexivity|reflexivity|lia]. }
    assert (Ex : forall j, j < 3 -> every (3 + j) 6 tab = map (cx j) l).
    { intros j Hj. unfold tab. apply every_table1; [lia|]. intro a. destruct (c_o a) as [[o1 o2] o3]. destruct (c_x a) as [[x1 x2] x3] eqn:E1.
      unfold cx. rewrite E1. cbn [pt_list app map length]. split; [reflexivity|]. destruct j as [|[|[|j]]]; [reflexivity|reflexivity|reflexivity|lia]. }
    rewrite (Eo 0), (Eo 1), (Eo 2) by lia.
    change (every 3 6 tab) with (every (3 + 0) 6 tab). change (every 4 6 tab) with (every (3 + 1) 6 tab). change (every 5 6 tab) with (every (3 + 2) 6 tab).
    rewrite (Ex 0), (Ex 1), (Ex 2) by lia. rewrite !stack3T_points. cbn [rbind].
    rewrite (join_floats _ (fun c => pt_list (c_xz c))). unfold seg5. rewrite fixed_floats_ok.
    2:{ apply Forall_fm. unfold wf18 in Hw. eapply Forall_impl; [|exact Hw]. intros a (_ & _ & _ & _ & _ & H1). exact H1. }
    cbn [rbind]. rewrite (flat_map_map _ _ _ (rd 5) (fun c => pt_list (c_xz c))).
    set (tab2 := flat_map (fun a => map (rd 5) (pt_list (c_xz a))) l). set (cz := fun j a => rd 5 (nth j (pt_list (c_xz a)) f_zero)).
    assert (Ez : forall j, j < 3 -> every j 3 tab2 = map (cz j) l).
    { intros j Hj. unfold tab2. apply every_table1; [lia|]. intro a. destruct (c_xz a) as [[x1 x2] x3] eqn:E1.
      unfold cz. rewrite E1. cbn [pt_list map length]. split; [reflexivity|]. destruct j as [|[|[|j]]]; [reflexivity|reflexivity|reflexivity|lia]. }
    rewrite (Ez 0), (Ez 1), (Ez 2) by lia. rewrite stack3T_points. cbn [rbind try_any].
    assert (Ei : forall k g, k < 5 -> (forall a, nth_error (ints18 a) k = Some (g a)) ->
      every k 5 (map float_of_Z (flat_map ints18 l)) = map (fun a => float_of_Z (g a)) l).
    { intros k g Hk Hg. rewrite flat_map_map. apply every_table1; [assumption|]. intro a. split; [reflexivity|]. apply nth_map. apply Hg. }
    rewrite (Ei 0 c_num), (Ei 1 c_type), (Ei 2 c_ref), (Ei 3 c_color), (Ei 4 c_method) by (reflexivity || lia).
    unfold read18, rd_pts. rewrite !map_map.
    assert (Epts : forall g, map (fun p => map (fun f => VFloat (rd 5 f)) (pt_list (g p))) l
       = map (fun a => map VFloat [rd 5 (nth 0 (pt_list (g a)) f_zero); rd 5 (nth 1 (pt_list (g a)) f_zero); rd 5 (nth 2 (pt_list (g a)) f_zero)]) l).
    { intro g. apply map_ext. intro a. destruct (g a) as [[x y] z]. reflexivity. }
    rewrite !Epts. unfold co, cx, cz.
    assert (En : map (fun x => VStr (strip (ljust 40 (c_name x)))) l = map (fun a => VStr (strip (c_name a))) l).
    { apply map_ext. intro a. rewrite strip_ljust. reflexivity. }
    rewrite En. reflexivity.
Qed.

(* ------------------------------------------------------------------ *)
(** ** 2420 *)

(** A 4x3 matrix: four rows of three. *)
Definition mat := (point * point * point * point)%type.
Definition mat_rows (m : mat) : list (list float) := let '(a, b, c, e) := m in map pt_list [a; b; c; e].
Definition as_mat (v : pyval) (m : mat) : Prop :=
  exists dt rows, v = VArr2 dt rows /\ Forall2 (Forall2 as_flt) rows (mat_rows m).
Record cs2420 := { s_label : Z; s_type : Z; s_color : Z; s_name : str; s_mat : mat }.
Record part := { p_uid : Z; p_name : str; p_cs : list cs2420 }.
Definition repr2420 (d : dict) (p : part) : Prop :=
  dget d (KS "type") = Some (VInt 2420) /\ dget d (KS "data") = None /\
  has_or as_int d "Part_UID" (p_uid p) 1%Z /\ has_or as_txt d "Part_Name" (p_name p) (lit "None") /\
  has (seq_of as_int) d "CS_sys_labels" (map s_label (p_cs p)) /\
  has_or (seq_of as_int) d "CS_types" (map s_type (p_cs p)) [0%Z] /\
  has_or (seq_of as_int) d "CS_colors" (map s_color (p_cs p)) [8%Z] /\
  has (seq_of as_txt) d "CS_names" (map s_name (p_cs p)) /\
  has (seq_of as_mat) d "CS_matrices" (map s_mat (p_cs p)).
Definition matv (m : mat) : Prop := Forall (Forall (fun f => f_valid f = true)) (mat_rows m).
Definition wf2420 (p : part) : Prop :=
  fits 10 (p_uid p) /\ p_uid p <> (-1)%Z /\ text_ok (p_name p) /\
  Forall (fun s => fits 10 (s_label s) /\ fits 9 (s_type s) /\ fits 9 (s_color s) /\ s_color s <> (-1)%Z /\
    text_ok (s_name s) /\ matv (s_mat s)) (p_cs p).
Definition read_mat (m : mat) : pyval := VArr2 DFloat (map (map VFloat) (mat_rows m)).
Definition read2420 (p : part) : dict :=
  [(KS "type", VInt 2420); (KS "Part_UID", VInt (p_uid p)); (KS "Part_Name", VStr (rstrip (p_name p)));
   (KS "CS_sys_labels", VList (map (fun s => VInt (s_label s)) (p_cs p)));
   (KS "CS_types", VList (map (fun s => VInt (s_type s)) (p_cs p)));
   (KS "CS_colors", VList (map (fun s => VInt (s_color s)) (p_cs p)));
   (KS "CS_names", VList (map (fun s => VStr (rstrip (s_name s))) (p_cs p)));
   (KS "CS_matrices", VList (map (fun s => read_mat (s_mat s)) (p_cs p)))].

Definition ints2420 (s : cs2420) : list Z := [s_label s; s_type s; s_color s].
Definition mrow (k : nat) (m : mat) : list float := nth k (mat_rows m) [].
Definition mline (fs : list float) : str := cells_text (map (CE 25 16) fs).
Definition lines2420 (s : cs2420) : list str :=
  [cells_text (map (CI 10) (ints2420 s)); s_name s;
   mline (mrow 0 (s_mat s)); mline (mrow 1 (s_mat s)); mline (mrow 2 (s_mat s)); mline (mrow 3 (s_mat s))].

Lemma matv_row : forall m k, matv m -> k < 4 -> exists x y z, mrow k m = [x; y; z] /\ f_valid x = true /\ f_valid y = true /\ f_valid z = true.
Proof.
  intros [[[[[a1 a2] a3] [[b1 b2] b3]] [[c1 c2] c3]] [[e1 e2] e3]] k H Hk. unfold matv, mat_rows in H. cbn [map pt_list] in H.
  inversion H as [|? ? Ha H1]; subst. inversion H1 as [|? ? Hb H2]; subst. inversion H2 as [|? ? Hc H3]; subst. inversion H3 as [|? ? He _]; subst.
  assert (G : forall x y z : float, Forall (fun f => f_valid f = true) [x; y; z] -> f_valid x = true /\ f_valid y = true /\ f_valid z = true).
  { intros x y z G. inversion G as [|? ? G1 G']; subst. inversion G' as [|? ? G2 G'']; subst. inversion G''; subst. auto. }
  destruct k as [|[|[|[|k]]]]; [| | | |lia]; cbn [mrow mat_rows map pt_list nth]; do 3 eexists; (split; [reflexivity|]); apply G; assumption.
Qed.
Lemma mline_ok : forall x y z, f_valid x = true -> f_valid y = true -> f_valid z = true ->
  okline (mline [x; y; z]) /\ split (mline [x; y; z]) = map (fmt_e false 16) [x; y; z].
Proof.
  intros x y z Hx Hy Hz. assert (Sp : Forall spaced_cell (map (CE 25 16) [x; y; z])).
  { repeat (constructor; [cbn [spaced_cell]; apply fmt16_lt; assumption|]). constructor. }
  split.
  - apply (okline_cells (map (CE 25 16) [x; y]) (CE 25 16 z)).
    + repeat constructor.
    + eapply Forall_impl; [|exact Sp]. exact spaced_width.
    + cbn [last_ok]. lia.
    + cbn. lia.
  - unfold mline. rewrite split_cells by assumption. reflexivity.
Qed.

Lemma lines2420_ok : forall p s, wf2420 p -> In s (p_cs p) -> Forall okline (lines2420 s) /\
  split (cells_text (map (CI 10) (ints2420 s))) = map dec_Z (ints2420 s) /\
  (forall k, k < 4 -> split (mline (mrow k (s_mat s))) = map (fmt_e false 16) (mrow k (s_mat s))).
Proof.
  intros p s (_ & _ & _ & Hw) Hs. rewrite Forall_forall in Hw. destruct (Hw s Hs) as (W1 & W2 & W3 & W4 & W5 & W6).
  assert (Sp : Forall spaced_cell (map (CI 10) [s_type s; s_color s])).
  { repeat (constructor; [cbn [spaced_cell]; apply fits_lt with (k := 9); [lia|lia|assumption]|]). constructor. }
  assert (M : forall k, k < 4 -> okline (mline (mrow k (s_mat s))) /\ split (mline (mrow k (s_mat s))) = map (fmt_e false 16) (mrow k (s_mat s))).
  { intros k Hk. destruct (matv_row _ k W6 Hk) as (x & y & z & -> & Hx & Hy & Hz). apply mline_ok; assumption. }
  split; [|split].
  - constructor; [|constructor].
    + apply (okline_cells (map (CI 10) [s_label s; s_type s]) (CI 10 (s_color s))).
      * repeat constructor.
      * constructor; [cbn [width_ok]; apply fits_le; [lia|assumption]|]. eapply Forall_impl; [|exact Sp]. exact spaced_width.
      * cbn [last_ok]. split; [lia|assumption].
      * cbn. lia.
    + rewrite <- (ljust_full 0 (s_name s)) by lia. apply text_ok_line. assumption.
    + repeat (constructor; [apply M; lia|]). constructor.
  - unfold ints2420. cbn [map]. rewrite split_cells_first by (auto; exact Logic.I). reflexivity.
  - intros k Hk. apply M. assumption.
Qed.

Lemma mat_row_at : forall d p i s k, has (seq_of as_mat) d "CS_matrices" (map s_mat (p_cs p)) -> nth_error (p_cs p) i = Some s -> k < 4 ->
  txt "%25.16e%25.16e%25.16e\n" (mat_row (at_ (ix d "CS_matrices") (Z.of_nat i)) (Z.of_nat k)) = WTxt (Ok (mline (mrow k (s_mat s)) ++ [LF])).
Proof.
  intros d p i s k H Hi Hk. destruct (has_at _ _ _ _ _ _ _ H (nth_map _ _ s_mat _ _ _ Hi)) as (v & E & dt & rows & -> & H2).
  unfold mat_row. rewrite E. cbn [rbind].
  assert (Hn : nth_error (mat_rows (s_mat s)) k = Some (mrow k (s_mat s))).
  { unfold mrow. apply nth_error_nth'. destruct (s_mat s) as [[[a b] c] e]. exact Hk. }
  destruct (Forall2_nth _ _ _ _ _ _ _ H2 Hn) as (row & Hrow & Hr). rewrite (py_nth_ok _ _ _ _ Hrow).
  assert (Hl : exists x y z, mrow k (s_mat s) = [x; y; z]).
  { unfold mrow. destruct (s_mat s) as [[[[[a1 a2] a3] [[b1 b2] b3]] [[c1 c2] c3]] [[e1 e2] e3]]. cbn [mat_rows map pt_list].
    destruct k as [|[|[|[|k]]]]; [| | | |lia]; cbn [nth]; eauto. }
  destruct Hl as (x & y & z & El). rewrite El in *.
  inversion Hr as [|v1 ? r1 ? V1 Hr1]; subst. inversion Hr1 as [|v2 ? r2 ? V2 Hr2]; subst. inversion Hr2 as [|v3 ? r3 ? V3 Hr3]; subst. inversion Hr3; subst.
  unfold txt. f_equal. apply pct_line with (l := map (CE 25 16) [x; y; z]); [reflexivity|]. cbn [map cells_args app]. auto.
Qed.

Lemma rstrip_line : forall s n, rstrip ((s ++ repeat blank n) ++ [LF]) = rstrip s.
Proof.
  intros s n. unfold rstrip. rewrite rstrip_by_ws by reflexivity. rewrite rstrip_by_ws; [reflexivity|]. apply blanks_ws.
Qed.
Lemma parse_ints_dec : forall l, parse_ints (map dec_Z l) = Ok l.
Proof. intro l. unfold parse_ints, rmap. rewrite map_map. rewrite (rseq_map_ok _ _ _ (fun z => z)); [rewrite map_id; reflexivity|]. intros z _. apply py_int_dec. Qed.
Lemma parse_mat : forall l, Forall (fun f => f_valid f = true) l -> parse_floats (map d_to_e (map (fmt_e false 16) l)) = Ok l.
Proof.
  intros l H. unfold parse_floats, rmap. rewrite !map_map. rewrite (rseq_map_ok _ _ _ (fun z => z)); [rewrite map_id; reflexivity|].
  intros f Hf. rewrite d_to_e_fmt, py_float_fmt, rd16_id; [reflexivity|]. rewrite Forall_forall in H. auto.
Qed.

Lemma mats_ok : forall l, Forall (fun s => matv (s_mat s)) l ->
  mats2420 (length l) (flat_map (fun s => mrow 0 (s_mat s)) l) (flat_map (fun s => mrow 1 (s_mat s)) l)
    (flat_map (fun s => mrow 2 (s_mat s)) l) (flat_map (fun s => mrow 3 (s_mat s)) l) = Ok (map (fun s => read_mat (s_mat s)) l).
Proof.
  intros l H. induction H as [|s l Hs _ IH]; [reflexivity|]. cbn [length flat_map mats2420].
  assert (Hl : forall k, k < 4 -> length (mrow k (s_mat s)) = 3).
  { intros k Hk. destruct (matv_row _ k Hs Hk) as (x & y & z & -> & _). reflexivity. }
  rewrite !(firstn_app_exact _ 3) by (apply Hl; lia). rewrite !(skipn_app_exact _ 3) by (apply Hl; lia).
  rewrite !Hl by lia. cbn [Nat.eqb andb]. rewrite IH. cbn [rbind map]. f_equal. f_equal.
  unfold read_mat, mrow. destruct (s_mat s) as [[[a b] c] e]. reflexivity.
Qed.

Lemma every2420 : forall j k (u n : str) l g, j = 4 + k -> k < 6 -> (forall s, nth_error (map (fun x => x ++ [LF]) (lines2420 s)) k = Some (g s)) ->
  every j 6 (@cons str (TAG ++ [LF]) (map (fun x => x ++ [LF]) (type_hdr 2420 :: u :: n :: flat_map lines2420 l))) = map g l.
Proof.
  intros j k u n l g -> Hk Hg. cbn [map].
  etransitivity; [exact (every_skip _ [TAG ++ [LF]; type_hdr 2420 ++ [LF]; u ++ [LF]; n ++ [LF]] _ k 6)|].
  rewrite flat_map_map. apply every_table1; [assumption|]. intro s. split; [reflexivity|apply Hg].
Qed.
Lemma join_lines : forall A (g : A -> str) l, join (map (fun a => g a ++ [LF]) l) = unlines (map g l).
Proof. intros A g l. unfold unlines. rewrite map_map. reflexivity. Qed.

Definition lines2420p (p : part) : list str :=
  rjust 10 (dec_Z (p_uid p)) :: ljust 80 (p_name p) :: flat_map lines2420 (p_cs p).

Lemma set2420 : forall c m fd ho d p, repr2420 d p -> wf2420 p ->
  text_set c m fd ho d 2420 (type_hdr 2420) (lines2420p p) (read2420 p).
Proof.
  intros c m fd ho d p (Hty & Hdat & R1 & R2 & R3 & R4 & R5 & R6 & R7) Hw. assert (Hw' := Hw). destruct Hw' as (W1 & W2 & W3 & W4).
  destruct (type_hdr_ok 2420 ltac:(lia)) as [Ht Hh].
  assert (Hok : Forall okline (type_hdr 2420 :: lines2420p p)).
  { constructor; [assumption|]. unfold lines2420p. constructor; [|constructor; [apply text_ok_line; assumption|]].
    - apply okline_plain; [apply plain_rjust, plain_dec|apply (ends_tag_int []); [lia|assumption]|]. rewrite rjust_length; [lia|]. apply fits_le; [lia|assumption].
    - rewrite Forall_forall. intros x Hx. apply in_flat_map in Hx as (n & Hn & Hx).
      destruct (lines2420_ok p n Hw Hn) as [Ho _]. rewrite Forall_forall in Ho. auto. }
  constructor; [|assumption|assumption|].
  - rewrite (set_items_text c m fd d (VInt 2420) Hty Hdat). change (write_dispatch c m fd (VInt 2420) d) with (write2420 d). unfold write2420.
    cbn [wp_items]. set (d1 := opt_fields d _).
    assert (Q1 : has as_int d1 "Part_UID" (p_uid p)) by (eapply has_opt_or; [exact R1|reflexivity|reflexivity]).
    assert (Q2 : has as_txt d1 "Part_Name" (p_name p)) by (eapply has_opt_or; [exact R2|reflexivity|reflexivity]).
    assert (Q3 : has (seq_of as_int) d1 "CS_sys_labels" (map s_label (p_cs p))) by (apply has_opt; assumption).
    assert (Q4 : has (seq_of as_int) d1 "CS_types" (map s_type (p_cs p))).
    { eapply has_opt_or; [exact R4|reflexivity|]. exists [VInt 0]. split; [reflexivity|]. repeat constructor. }
    assert (Q5 : has (seq_of as_int) d1 "CS_colors" (map s_color (p_cs p))).
    { eapply has_opt_or; [exact R5|reflexivity|]. exists [VInt 8]. split; [reflexivity|]. repeat constructor. }
    assert (Q6 : has (seq_of as_txt) d1 "CS_names" (map s_name (p_cs p))) by (apply has_opt; assumption).
    assert (Q7 : has (seq_of as_mat) d1 "CS_matrices" (map s_mat (p_cs p))) by (apply has_opt; assumption).
    clearbody d1.
    assert (Hck : check2420 d1 = Ok (length (p_cs p))).
    { assert (Hlen : forall A (P : pyval -> A -> Prop) k (l : list A), has (seq_of P) d1 k l -> exists v, ix d1 k = Ok v /\ py_len v = Ok (length l)).
      { intros A P k l H. assert (HL := has_len _ _ _ _ _ H). apply has_get in H as (v & Hv & _). exists v. rewrite Hv in HL. auto. }
      destruct (Hlen _ _ _ _ Q3) as (v3 & E3 & L3). destruct (Hlen _ _ _ _ Q4) as (v4 & E4 & L4). destruct (Hlen _ _ _ _ Q5) as (v5 & E5 & L5).
      destruct (Hlen _ _ _ _ Q6) as (v6 & E6 & L6). destruct (Hlen _ _ _ _ Q7) as (v7 & E7 & L7).
      unfold check2420. rewrite E3. cbn [rbind]. rewrite L3. cbn [rbind map rseq]. rewrite E4, E5, E6, E7. cbn [rbind].
      unfold rmap. cbn [map rseq]. rewrite L4, L5, L6, L7. cbn [rbind]. rewrite !map_length. cbn [forallb]. rewrite Nat.eqb_refl. reflexivity. }
    rewrite Hck. rewrite hdr_writes. unfold lines2420p. rewrite !unlines_cons'. eapply writes_eq.
    { apply writes_consr; [reflexivity|].
      apply (writes_line _ _ [CI 10 (p_uid p)]); [reflexivity|cbn [cells_args app]; split; [apply has_gi; assumption|exact Logic.I]|].
      apply (writes_line _ _ [CS true 80 (p_name p)]); [reflexivity|cbn [cells_args app]; split; [apply has_gs; assumption|exact Logic.I]|].
      apply writes_app; [|exact end_writes].
      apply (writes_rows _ _ lines2420). intros i s Hi. unfold rec2420, lines2420. rewrite !unlines_cons'.
      apply (writes_line _ _ (map (CI 10) (ints2420 s))); [reflexivity| |].
      { cbn [ints2420 map cells_args app]. repeat split; (eapply has_gi_at; [eassumption|apply nth_map; assumption]). }
      replace (s_name s) with (cells_text [CS false 0 (s_name s)]) by (unfold cells_text; cbn [map concat cell_text]; rewrite app_nil_r; apply rjust_full; lia).
      apply (writes_line _ _ [CS false 0 (s_name s)]); [reflexivity| |].
      { cbn [cells_args app]. split; [|exact Logic.I]. eapply has_gs_at; [eassumption|apply nth_map; assumption]. }
      change 0%Z with (Z.of_nat 0). change 1%Z with (Z.of_nat 1). change 2%Z with (Z.of_nat 2). change 3%Z with (Z.of_nat 3).
      rewrite (mat_row_at d1 p i s 0), (mat_row_at d1 p i s 1), (mat_row_at d1 p i s 2), (mat_row_at d1 p i s 3) by (assumption || lia).
      repeat constructor. }
    unfold type_hdr, cells_text. cbn [map concat cell_text]. rewrite !app_nil_r. rewrite <- !app_assoc. reflexivity.
  - intros block _ Hb. unfold extract_set. rewrite Hb. cbn [Z.eqb Pos.eqb]. unfold extract2420.
    rewrite split_text by assumption. cbv beta iota zeta. unfold lines2420p.
    set (uu := rjust 10 (dec_Z (p_uid p))). set (nn := ljust 80 (p_name p)). set (l := p_cs p).
    every_is (every2420 4 0 uu nn l (fun s => cells_text (map (CI 10) (ints2420 s)) ++ [LF]) eq_refl ltac:(lia) (fun _ => eq_refl)).
    every_is (every2420 5 1 uu nn l (fun s => s_name s ++ [LF]) eq_refl ltac:(lia) (fun _ => eq_refl)).
    every_is (every2420 6 2 uu nn l (fun s => mline (mrow 0 (s_mat s)) ++ [LF]) eq_refl ltac:(lia) (fun _ => eq_refl)).
    every_is (every2420 7 3 uu nn l (fun s => mline (mrow 1 (s_mat s)) ++ [LF]) eq_refl ltac:(lia) (fun _ => eq_refl)).
    every_is (every2420 8 4 uu nn l (fun s => mline (mrow 2 (s_mat s)) ++ [LF]) eq_refl ltac:(lia) (fun _ => eq_refl)).
    every_is (every2420 9 5 uu nn l (fun s => mline (mrow 3 (s_mat s)) ++ [LF]) eq_refl ltac:(lia) (fun _ => eq_refl)).
    cbn [map ln nth_error of_option rbind].
    assert (Eu : py_int (uu ++ [LF]) = Ok (p_uid p)).
    { unfold uu, rjust. rewrite <- app_assoc. apply py_int_padded; [apply blanks_num|reflexivity]. }
    rewrite Eu. cbn [rbind]. rewrite !join_lines, !split_unlines.
    assert (E1 : flat_map split (map (fun s => cells_text (map (CI 10) (ints2420 s))) l) = map dec_Z (flat_map ints2420 l)).
    { rewrite flat_map_map. rewrite !flat_map_concat_map, map_map. f_equal. apply map_ext_in. intros a Ha. apply (lines2420_ok p a Hw Ha). }
    rewrite E1, parse_ints_dec. cbn [rbind].
    assert (Em : forall k, k < 4 -> flat_map split (map (fun s => mline (mrow k (s_mat s))) l) = map (fmt_e false 16) (flat_map (fun s => mrow k (s_mat s)) l)).
    { intros k Hk. rewrite flat_map_map. rewrite !flat_map_concat_map, map_map. f_equal. apply map_ext_in. intros a Ha. apply (lines2420_ok p a Hw Ha). assumption. }
    assert (Hm : Forall (fun s => matv (s_mat s)) l). { eapply Forall_impl; [|exact W4]. intros s H. apply H. }
    assert (Hv : forall k, k < 4 -> Forall (fun f => f_valid f = true) (flat_map (fun s => mrow k (s_mat s)) l)).
    { intros k Hk. apply Forall_fm. eapply Forall_impl; [|exact Hm]. intros s H. destruct (matv_row _ k H Hk) as (x & y & z & -> & Hx & Hy & Hz).
      repeat constructor; assumption. }
    rewrite (Em 0), (Em 1), (Em 2), (Em 3) by lia. rewrite !parse_mat by (apply Hv; lia). cbn [rbind].
    assert (Hlen : (length (flat_map (fun s => mrow 0 (s_mat s)) l) + 2) / 3 = length l).
    { assert (El : length (flat_map (fun s => mrow 0 (s_mat s)) l) = length l * 3).
      { clear -Hm. induction Hm as [|s l Hs _ IH]; [reflexivity|]. cbn [flat_map length]. rewrite app_length, IH.
        destruct (matv_row _ 0 Hs ltac:(lia)) as (x & y & z & -> & _). cbn [length]. lia. }
      rewrite El. rewrite Nat.div_add_l by lia. cbn. lia. }
    rewrite Hlen, mats_ok by assumption. cbn [rbind].
    assert (Ei : forall k g, k < 3 -> (forall a, nth_error (ints2420 a) k = Some (g a)) -> every k 3 (flat_map ints2420 l) = map g l).
    { intros k g Hk Hg. apply every_table1; [assumption|]. intro a. split; [reflexivity|]. apply Hg. }
    rewrite (Ei 0 s_label), (Ei 1 s_type), (Ei 2 s_color) by (reflexivity || lia).
    unfold read2420. fold l. unfold nn, ljust. rewrite rstrip_line. rewrite !map_map.
    assert (En : map (fun x => VStr (rstrip (s_name x ++ [LF]))) l = map (fun s => VStr (rstrip (s_name s))) l).
    { apply map_ext. intro s. rewrite <- (rstrip_line (s_name s) 0). cbn [repeat]. rewrite app_nil_r. reflexivity. }
    rewrite En. reflexivity.
Qed.
