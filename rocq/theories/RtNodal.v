(** Storing and reading back data at nodes (data set 55). *)
From Verif Require Import PyBase PyNum PyVal Utf8 Tools DsNodes DsHeaders Ds55 Uff Facts IntFacts FloatFacts DecFacts FloatText FloatExact CplxFacts DictFacts
  Scan Container Append ContainerThms Utf8Facts Lines Stored Cells Rows RtNodes RtCs RtHeads.
From Coq Require Import Lia.
Open Scope nat_scope.
Open Scope list_scope.

(** Records 7 and 8: normal modes (analysis type 2), frequency response (5),
    complex modes of first (3) and second order (7). *)
Inductive modes :=
| Normal (lc n : Z) (freq m vis his : float)
| Response (lc n : Z) (freq : float)
| Complex (second : bool) (lc n : Z) (eig a b : float * float).
Inductive kind55 := Real3 | Real6 | Cplx3.
(** [v_rows]: node number and its 3, 6 or (real and imaginary parts) 6 values. *)
Record data55 := { v_ids : list str; v_model : Z; v_ch : Z; v_spec : Z; v_modes : modes; v_kind : kind55; v_rows : list (Z * list float) }.
Definition analysis (m : modes) : Z := match m with Normal _ _ _ _ _ _ => 2 | Response _ _ _ => 5 | Complex s _ _ _ _ _ => if s then 7 else 3 end%Z.
Definition row_len (k : kind55) : nat := match k with Real3 => 3 | _ => 6 end.
Definition colf (i : nat) (rows : list (Z * list float)) : list float := map (fun r => nth i (snd r) f_zero) rows.
Definition colc (i : nat) (rows : list (Z * list float)) : list (float * float) :=
  map (fun r => (nth (2 * i) (snd r) f_zero, nth (2 * i + 1) (snd r) f_zero)) rows.

(** A number that is formatted as and compares like [z]. *)
Definition is_num (v : pyval) (z : Z) : Prop := as_int v z /\ forall k, py_eqZ v k = (z =? k)%Z.
Definition as_cplx (v : pyval) (p : float * float) : Prop := gf (real_of (Ok v)) (fst p) /\ gf (imag_of (Ok v)) (snd p).
(** A number to which [0.j] is added unless it is complex. *)
Definition as_modal (v : pyval) (p : float * float) : Prop := exists v', add_0j v = Ok v' /\ as_cplx v' p.
Definition c_zero : float * float := (f_zero, f_zero).
Definition repr_modes (d : dict) (m : modes) : Prop :=
  match m with
  | Normal lc n f mm vi hi => has as_int d "load_case" lc /\ has as_int d "mode_n" n /\ has as_flt d "freq" f /\
      has_or as_flt d "modal_m" mm f_zero /\ has_or as_flt d "modal_damp_vis" vi f_zero /\ has_or as_flt d "modal_damp_his" hi f_zero
  | Response lc n f => has as_int d "load_case" lc /\ has as_int d "freq_step_n" n /\ has as_flt d "freq" f
  | Complex _ lc n e a b => has as_int d "load_case" lc /\ has as_int d "mode_n" n /\ has as_cplx d "eig" e /\
      has_or as_modal d "modal_a" a c_zero /\ has_or as_modal d "modal_b" b c_zero
  end.
Definition real_col (v : pyval) (l : list float) : Prop := np_iscomplex v = Ok false /\ seq_of as_flt v l.
Definition cplx_col (v : pyval) (l : list (float * float)) : Prop := np_iscomplex v = Ok true /\ seq_of as_cplx v l.
Definition has456 (d : dict) : bool := dmem d (KS "r4") && dmem d (KS "r5") && dmem d (KS "r6").
Definition repr_rows (d : dict) (k : kind55) (rows : list (Z * list float)) : Prop :=
  match k with
  | Real3 => has456 d = false /\ has real_col d "r1" (colf 0 rows) /\ has (seq_of as_flt) d "r2" (colf 1 rows) /\ has (seq_of as_flt) d "r3" (colf 2 rows)
  | Real6 => has real_col d "r1" (colf 0 rows) /\ has (seq_of as_flt) d "r2" (colf 1 rows) /\ has (seq_of as_flt) d "r3" (colf 2 rows) /\
      has (seq_of as_flt) d "r4" (colf 3 rows) /\ has (seq_of as_flt) d "r5" (colf 4 rows) /\ has (seq_of as_flt) d "r6" (colf 5 rows)
  | Cplx3 => has456 d = false /\ has cplx_col d "r1" (colc 0 rows) /\ has (seq_of as_cplx) d "r2" (colc 1 rows) /\ has (seq_of as_cplx) d "r3" (colc 2 rows)
  end.
Definition id_keys : list string := ["id1"; "id2"; "id3"; "id4"; "id5"]%string.
Definition repr55 (d : dict) (r : data55) : Prop :=
  dget d (KS "type") = Some (VInt 55) /\ dget d (KS "data") = None /\
  Forall2 (fun k s => has_or as_txt d k s (lit "NONE")) id_keys (v_ids r) /\
  has_or as_int d "model_type" (v_model r) 1%Z /\ has is_num d "analysis_type" (analysis (v_modes r)) /\
  has as_int d "data_ch" (v_ch r) /\ has as_int d "spec_data_type" (v_spec r) /\
  repr_modes d (v_modes r) /\ has (seq_of as_int) d "node_nums" (map fst (v_rows r)) /\ repr_rows d (v_kind r) (v_rows r).

Definition okf (f : float) : Prop := f_valid f = true.
Definition okfin (f : float) : Prop := f_valid f = true /\ f_finite f = true.
Definition wf_modes (m : modes) : Prop :=
  match m with
  | Normal lc n f mm vi hi => fits 10 lc /\ fits 10 n /\ n <> (-1)%Z /\ Forall okf [f; mm; vi; hi]
  | Response lc n f => fits 10 lc /\ fits 10 n /\ n <> (-1)%Z /\ okf f
  | Complex _ lc n e a b => fits 10 lc /\ fits 10 n /\ n <> (-1)%Z /\ Forall okfin [fst e; snd e; fst a; snd a; fst b; snd b]
  end.
Definition wf55 (r : data55) : Prop :=
  Forall text_ok (v_ids r) /\ Forall (fits 10) [v_model r; v_ch r; v_spec r] /\ wf_modes (v_modes r) /\
  Forall (fun w => fits 10 (fst w) /\ fst w <> (-1)%Z /\ length (snd w) = row_len (v_kind r) /\
    Forall (match v_kind r with Cplx3 => okfin | _ => okf end) (snd w)) (v_rows r).

(** What is read: reals rounded to six digits. *)
Definition r6f (f : float) : float := rd 5 f.
Definition r6c (p : float * float) : pyval := VCplx (re_part (r6f (fst p)) (r6f (snd p))) (im_part (r6f (snd p))).
Definition out_modes (m : modes) : dict :=
  match m with
  | Normal lc n f mm vi hi => [(KS "load_case", VInt lc); (KS "mode_n", VInt n); (KS "freq", VFloat (r6f f)); (KS "modal_m", VFloat (r6f mm));
      (KS "modal_damp_vis", VFloat (r6f vi)); (KS "modal_damp_his", VFloat (r6f hi))]
  | Response lc n f => [(KS "load_case", VInt lc); (KS "freq_step_n", VInt n); (KS "freq", VFloat (r6f f))]
  | Complex _ lc n e a b => [(KS "load_case", VInt lc); (KS "mode_n", VInt n); (KS "modal_a", r6c a); (KS "modal_b", r6c b); (KS "eig", r6c e)]
  end.
Definition real_out (i : nat) (rows : list (Z * list float)) : pyval := vfloats (map r6f (colf i rows)).
Definition cplx_out (i : nat) (rows : list (Z * list float)) : pyval := VArr DCplx (map r6c (colc i rows)).
Definition out_rows (k : kind55) (rows : list (Z * list float)) : dict :=
  match k with
  | Real3 => [(KS "r1", real_out 0 rows); (KS "r2", real_out 1 rows); (KS "r3", real_out 2 rows)]
  | Real6 => [(KS "r1", real_out 0 rows); (KS "r2", real_out 1 rows); (KS "r3", real_out 2 rows);
              (KS "r4", real_out 3 rows); (KS "r5", real_out 4 rows); (KS "r6", real_out 5 rows)]
  | Cplx3 => [(KS "r1", cplx_out 0 rows); (KS "r2", cplx_out 1 rows); (KS "r3", cplx_out 2 rows)]
  end.
Definition dtype55 (k : kind55) : Z := match k with Cplx3 => 5 | _ => 2 end.
Definition per_node (k : kind55) : Z := match k with Real6 => 6 | _ => 3 end.
Definition read55 (r : data55) : dict :=
  (KS "type", VInt 55) :: combine (map KS id_keys) (map (fun s => VStr (strip (firstn 80 s))) (v_ids r)) ++
  [(KS "model_type", VInt (v_model r)); (KS "analysis_type", VInt (analysis (v_modes r))); (KS "data_ch", VInt (v_ch r));
   (KS "spec_data_type", VInt (v_spec r)); (KS "data_type", VInt (dtype55 (v_kind r))); (KS "n_data_per_node", VInt (per_node (v_kind r)))] ++
  out_modes (v_modes r) ++ [(KS "node_nums", np_int_list (map fst (v_rows r)))] ++ out_rows (v_kind r) (v_rows r).

(* ------------------------------------------------------------------ *)
(** ** Lines *)

Definition fcells (l : list float) : list cell := map (CE 13 5) l.
Definition head55 (r : data55) : list cell :=
  map (CI 10) [v_model r; analysis (v_modes r); v_ch r; v_spec r; dtype55 (v_kind r); per_node (v_kind r)].
Definition rec7 (m : modes) : list cell :=
  map (CI 10) match m with Normal lc n _ _ _ _ => [2; 4; lc; n] | Response lc n _ => [2; 1; lc; n] | Complex _ lc n _ _ _ => [2; 6; lc; n] end%Z.
Definition rec8 (m : modes) : list float :=
  match m with Normal _ _ f mm vi hi => [f; mm; vi; hi] | Response _ _ f => [f] | Complex _ _ _ e a b => [fst e; snd e; fst a; snd a; fst b; snd b] end.
Definition row_lines (w : Z * list float) : list str := [cells_text [CI 10 (fst w)]; cells_text (fcells (snd w))].
Definition lines55 (r : data55) : list str :=
  map (ljust 80) (v_ids r) ++ [cells_text (head55 r); cells_text (rec7 (v_modes r)); cells_text (fcells (rec8 (v_modes r)))] ++
  flat_map row_lines (v_rows r).

Lemma fcells_width : forall l, Forall okf l -> Forall width_ok (fcells l).
Proof. intros l H. unfold fcells. rewrite Forall_map. eapply Forall_impl; [|exact H]. intros f Hf. cbn [width_ok]. apply fmt5_le. exact Hf. Qed.
Lemma fcells_ok : forall l, l <> [] -> Forall okf l -> okline (cells_text (fcells l)).
Proof.
  intros l Hn H. assert (Hw := fcells_width l H). destruct (exists_last Hn) as (q & f & ->). unfold fcells in *. rewrite map_app in *. cbn [map] in *.
  apply okline_nums; [|assumption|cbn; lia]. rewrite Forall_forall. intros x Hx. apply in_app_or in Hx as [Hx|[<-|[]]]; [apply in_map_iff in Hx as (y & <- & _)|]; cbn; lia.
Qed.
Lemma ints_ok : forall l z, Forall (fits 10) (l ++ [z]) -> z <> (-1)%Z -> Forall width_ok (map (CI 10) (l ++ [z])) /\ okline (cells_text (map (CI 10) (l ++ [z]))).
Proof.
  intros l z H Hz. assert (Hw : Forall width_ok (map (CI 10) (l ++ [z]))).
  { rewrite Forall_map. eapply Forall_impl; [|exact H]. intros x Hx. apply fits_le; [lia|assumption]. }
  split; [assumption|]. rewrite map_app in *. cbn [map] in *. apply okline_nums; [|assumption|cbn; split; [lia|assumption]].
  rewrite Forall_forall. intros x Hx. apply in_app_or in Hx as [Hx|[<-|[]]]; [apply in_map_iff in Hx as (y & <- & _)|]; cbn; lia.
Qed.
Lemma okfin_okf : forall l, Forall okfin l -> Forall okf l.
Proof. intros l H. eapply Forall_impl; [|exact H]. intros f [Hf _]. exact Hf. Qed.
Lemma fits10_small : forall z, (0 <= z < 10)%Z -> fits 10 z.
Proof. intros z H. unfold fits. cbn. lia. Qed.

Lemma wf_modes_lines : forall m, wf_modes m -> (Forall width_ok (rec7 m) /\ okline (cells_text (rec7 m))) /\
  (Forall width_ok (fcells (rec8 m)) /\ okline (cells_text (fcells (rec8 m)))).
Proof.
  intros m H. destruct m as [lc n f mm vi hi|lc n f|s lc n e a b]; cbn [wf_modes rec7 rec8] in *; destruct H as (H1 & H2 & H3 & H4).
  - split; [apply (ints_ok [2; 4; lc]%Z n); [|assumption]; repeat (constructor; [first [assumption|apply fits10_small; lia]|]); constructor|].
    split; [apply fcells_width; assumption|apply fcells_ok; [discriminate|assumption]].
  - assert (Hf : Forall okf [f]) by (constructor; [assumption|constructor]).
    split; [apply (ints_ok [2; 1; lc]%Z n); [|assumption]; repeat (constructor; [first [assumption|apply fits10_small; lia]|]); constructor|].
    split; [apply fcells_width; assumption|apply fcells_ok; [discriminate|assumption]].
  - apply okfin_okf in H4.
    split; [apply (ints_ok [2; 6; lc]%Z n); [|assumption]; repeat (constructor; [first [assumption|apply fits10_small; lia]|]); constructor|].
    split; [apply fcells_width; assumption|apply fcells_ok; [discriminate|assumption]].
Qed.
Lemma analysis_small : forall m, (0 <= analysis m < 10)%Z.
Proof. intros [| |[] ? ? ? ? ?]; cbn; lia. Qed.
Lemma wf_head55 : forall r, wf55 r -> Forall width_ok (head55 r) /\ okline (cells_text (head55 r)).
Proof.
  intros r (_ & H & _ & _). inversion H as [|? ? H1 H']; subst. inversion H' as [|? ? H2 H'']; subst. inversion H'' as [|? ? H3 _]; subst.
  apply (ints_ok [v_model r; analysis (v_modes r); v_ch r; v_spec r; dtype55 (v_kind r)] (per_node (v_kind r))).
  - assert (A := analysis_small (v_modes r)). repeat (constructor; [first [assumption|apply fits10_small; try (destruct (v_kind r); cbn); lia]|]). constructor.
  - destruct (v_kind r); discriminate.
Qed.
Lemma wf_row : forall r w, wf55 r -> In w (v_rows r) -> Forall okf (snd w) /\ length (snd w) = row_len (v_kind r) /\
  fits 10 (fst w) /\ fst w <> (-1)%Z /\ (v_kind r = Cplx3 -> Forall okfin (snd w)).
Proof.
  intros r w (_ & _ & _ & H) Hw. rewrite Forall_forall in H. destruct (H w Hw) as (H1 & H2 & H3 & H4). repeat split; try assumption; try apply H1.
  - destruct (v_kind r); [assumption|assumption|apply okfin_okf; assumption].
  - intro E. rewrite E in H4. assumption.
Qed.
Lemma row_lines_ok : forall r w, wf55 r -> In w (v_rows r) -> Forall okline (row_lines w).
Proof.
  intros r w Hr Hw. destruct (wf_row r w Hr Hw) as (H1 & H2 & H3 & H4 & _). unfold row_lines. constructor; [|constructor; [|constructor]].
  - apply (ints_ok [] (fst w)); [constructor; [assumption|constructor]|assumption].
  - apply fcells_ok; [|assumption]. intro E. rewrite E in H2. destruct (v_kind r); discriminate.
Qed.

(* ------------------------------------------------------------------ *)
(** ** Defaults *)

Definition defs55 (m : modes) : dict :=
  [(KS "units_description", VStr (lit " ")); (KS "id1", VStr (lit "NONE")); (KS "id2", VStr (lit "NONE"));
   (KS "id3", VStr (lit "NONE")); (KS "id4", VStr (lit "NONE")); (KS "id5", VStr (lit "NONE")); (KS "model_type", VInt 1)] ++
  match m with Normal _ _ _ _ _ _ => [(KS "modal_m", VInt 0); (KS "modal_damp_vis", VInt 0); (KS "modal_damp_his", VInt 0)] | _ => [] end.
Definition is_modal (k : key) : bool := key_eqb k (KS "modal_a") || key_eqb k (KS "modal_b").
Lemma prep55_ok : forall d m, has is_num d "analysis_type" (analysis m) -> repr_modes d m ->
  exists d1, prep55 d = (d1, Ok (analysis m)) /\
    (forall k, is_modal k = false -> dget d1 k = match dget d k with Some v => Some v | None => dget (defs55 m) k end) /\
    match m with Complex _ _ _ _ a b => has as_cplx d1 "modal_a" a /\ has as_cplx d1 "modal_b" b | _ => True end.
Proof.
  intros d m Ha Hm. unfold prep55. set (d0 := opt_fields d _).
  assert (G0 : forall k, dget d0 k = match dget d k with Some v => Some v | None => dget (firstn 7 (defs55 m)) k end).
  { intro k. unfold d0. rewrite opt_fields_get. reflexivity. }
  destruct Ha as (v & Ev & _ & Hq). unfold ix at 1. rewrite G0, Ev. cbn [of_option]. rewrite !Hq.
  destruct m as [lc n f mm vi hi|lc n f|s lc n e a b]; cbn [analysis] in *.
  - rewrite Z.eqb_refl. eexists. split; [reflexivity|]. split; [|exact Logic.I]. intros k Hk. rewrite opt_fields_get, G0.
    destruct (dget d k); [reflexivity|]. unfold defs55. rewrite dget_app. reflexivity.
  - cbn [Z.eqb Pos.eqb orb]. eexists. split; [reflexivity|]. split; [|exact Logic.I]. intros k Hk. rewrite G0. destruct (dget d k); [reflexivity|].
    unfold defs55. rewrite app_nil_r. reflexivity.
  - assert (E2 : ((if s then 7 else 3) =? 2)%Z = false) by (destruct s; reflexivity). rewrite E2.
    assert (E3 : (((if s then 7 else 3) =? 3) || ((if s then 7 else 3) =? 7))%Z = true) by (destruct s; reflexivity). rewrite E3.
    destruct Hm as (_ & _ & _ & Hma & Hmb). set (d1 := opt_fields d0 _).
    assert (Ga : has as_modal d1 "modal_a" a).
    { unfold d1. eapply (has_opt_or _ _ _ _ _ _ c_zero); [|reflexivity|exists (VCplx f_zero f_zero); split; [reflexivity|split; reflexivity]].
      destruct Hma as [(x & Hx & Px)|[Hx ->]]; [left|right]; [exists x; split; [rewrite G0, Hx; reflexivity|assumption]|].
      split; [rewrite G0, Hx; reflexivity|reflexivity]. }
    assert (Gb : has as_modal d1 "modal_b" b).
    { unfold d1. eapply (has_opt_or _ _ _ _ _ _ c_zero); [|reflexivity|exists (VCplx f_zero f_zero); split; [reflexivity|split; reflexivity]].
      destruct Hmb as [(x & Hx & Px)|[Hx ->]]; [left|right]; [exists x; split; [rewrite G0, Hx; reflexivity|assumption]|].
      split; [rewrite G0, Hx; reflexivity|reflexivity]. }
    destruct Ga as (xa & Ea & va & Aa & Ca). unfold ix at 1. rewrite Ea. cbn [of_option rbind]. rewrite Aa.
    destruct Gb as (xb & Eb & vb & Ab & Cb). unfold ix. rewrite dget_dput. cbn [key_eqb String.eqb Ascii.eqb Bool.eqb]. rewrite Eb. cbn [of_option rbind]. rewrite Ab.
    eexists. split; [destruct s; reflexivity|]. split.
    + intros k Hk. unfold is_modal in Hk. apply orb_false_iff in Hk as [K1 K2]. rewrite !dget_dput, K1, K2. unfold d1. rewrite opt_fields_get, G0.
      destruct (dget d k); [reflexivity|]. unfold defs55. rewrite app_nil_r. cbn [firstn app]. cbn [dget]. rewrite K1, K2.
      match goal with |- match ?x with Some _ => _ | None => _ end = _ => destruct x; reflexivity end.
    + split.
      * exists va. split; [rewrite !dget_dput; reflexivity|assumption].
      * exists vb. split; [rewrite dget_dput; reflexivity|assumption].
Qed.
Lemma has_view : forall A (P : pyval -> A -> Prop) d d1 m k a,
  (forall k, is_modal k = false -> dget d1 k = match dget d k with Some v => Some v | None => dget (defs55 m) k end) -> is_modal (KS k) = false ->
  has P d k a -> has P d1 k a.
Proof. intros A P d d1 m k a G Hk (v & Hv & Hp). exists v. split; [|assumption]. rewrite G, Hv by assumption. reflexivity. Qed.
Lemma has_view_or : forall A (P : pyval -> A -> Prop) d d1 m k a dflt v,
  (forall k, is_modal k = false -> dget d1 k = match dget d k with Some v => Some v | None => dget (defs55 m) k end) -> is_modal (KS k) = false ->
  has_or P d k a dflt -> dget (defs55 m) (KS k) = Some v -> P v dflt -> has P d1 k a.
Proof.
  intros A P d d1 m k a dflt v G Hk [H|[H ->]] Hv Hp; [eapply has_view; eassumption|]. exists v. split; [|assumption]. rewrite G, H by assumption. assumption.
Qed.

(* ------------------------------------------------------------------ *)
(** ** Writing *)

Lemma has_gre_at : forall d k l i a, has (seq_of as_cplx) d k l -> nth_error l i = Some a ->
  gf (real_of (at_ (ix d k) (Z.of_nat i))) (fst a) /\ gf (imag_of (at_ (ix d k) (Z.of_nat i))) (snd a).
Proof. intros d k l i a H Hi. destruct (has_at _ _ _ _ _ _ _ H Hi) as (v & -> & Hp). exact Hp. Qed.
Lemma has_gre : forall d k a, has as_cplx d k a -> gf (real_of (ix d k)) (fst a) /\ gf (imag_of (ix d k)) (snd a).
Proof. intros d k a H. destruct (has_get _ _ _ _ _ H) as (v & -> & Hp). exact Hp. Qed.

Definition cplx55 (k : kind55) : bool := match k with Cplx3 => true | _ => false end.
Definition six55 (k : kind55) : bool := match k with Real6 => true | _ => false end.
Lemma repr_rows_kind : forall d k rows, repr_rows d k rows ->
  (do v <- ix d "r1" ;; np_iscomplex v) = Ok (cplx55 k) /\ has456 d = six55 k.
Proof.
  intros d k rows H. destruct k; cbn [repr_rows cplx55 six55] in *.
  - destruct H as (H1 & H2 & _). destruct (has_get _ _ _ _ _ H2) as (v & -> & Hc & _). split; [exact Hc|assumption].
  - destruct H as (H2 & _ & _ & (v4 & H4 & _) & (v5 & H5 & _) & (v6 & H6 & _)). destruct (has_get _ _ _ _ _ H2) as (v & -> & Hc & _). split; [exact Hc|].
    unfold has456, dmem. rewrite H4, H5, H6. reflexivity.
  - destruct H as (H1 & H2 & _). destruct (has_get _ _ _ _ _ H2) as (v & -> & Hc & _). split; [exact Hc|assumption].
Qed.
Lemma real_col_seq : forall d k l, has real_col d k l -> has (seq_of as_flt) d k l.
Proof. intros d k l (v & Hv & _ & Hs). exists v. auto. Qed.
Lemma cplx_col_seq : forall d k l, has cplx_col d k l -> has (seq_of as_cplx) d k l.
Proof. intros d k l (v & Hv & _ & Hs). exists v. auto. Qed.
Lemma nth_col : forall j rows i w, nth_error rows i = Some w -> nth_error (colf j rows) i = Some (nth j (snd w) f_zero).
Proof. intros j rows i w H. exact (map_nth_error (fun r => nth j (snd r) f_zero) i rows H). Qed.
Lemma nth_colc : forall j rows i w, nth_error rows i = Some w -> nth_error (colc j rows) i = Some (nth (2 * j) (snd w) f_zero, nth (2 * j + 1) (snd w) f_zero).
Proof. intros j rows i w H. exact (map_nth_error (fun r => (nth (2 * j) (snd r) f_zero, nth (2 * j + 1) (snd r) f_zero)) i rows H). Qed.

Lemma node_writes : forall d k rows i w, has (seq_of as_int) d "node_nums" (map fst rows) -> repr_rows d k rows -> nth_error rows i = Some w ->
  length (snd w) = row_len k -> writes (node55 d (cplx55 k) (six55 k) (Z.of_nat i)) (unlines (row_lines w)).
Proof.
  intros d k rows i [z l] Hn H Hi Hl. cbn [snd] in Hl. unfold node55, row_lines. cbn [fst snd].
  assert (Gz : gi (at_ (ix d "node_nums") (Z.of_nat i)) z) by (apply (has_gi_at _ _ _ _ _ Hn); exact (map_nth_error fst i rows Hi)).
  eapply writes_eq.
  { apply (writes_line _ _ [CI 10 z]); [reflexivity|cbn [cells_args app]; auto|].
    destruct k; cbn [cplx55 six55 repr_rows row_len] in *.
    - destruct H as (_ & R1 & R2 & R3). apply real_col_seq in R1. destruct l as [|a [|b [|c [|? ?]]]]; try discriminate.
      apply (writes_line _ _ (fcells [a; b; c]) _ []); [reflexivity| |constructor]. cbn [fcells map cells_args app].
      split; [exact (has_gf_at _ _ _ _ _ R1 (nth_col 0 _ _ _ Hi))|]. split; [exact (has_gf_at _ _ _ _ _ R2 (nth_col 1 _ _ _ Hi))|].
      split; [exact (has_gf_at _ _ _ _ _ R3 (nth_col 2 _ _ _ Hi))|exact Logic.I].
    - destruct H as (R1 & R2 & R3 & R4 & R5 & R6). apply real_col_seq in R1. destruct l as [|a [|b [|c [|e [|f [|g [|? ?]]]]]]]; try discriminate.
      apply (writes_line _ _ (fcells [a; b; c; e; f; g]) _ []); [reflexivity| |constructor]. cbn [fcells map cells_args app].
      split; [exact (has_gf_at _ _ _ _ _ R1 (nth_col 0 _ _ _ Hi))|]. split; [exact (has_gf_at _ _ _ _ _ R2 (nth_col 1 _ _ _ Hi))|].
      split; [exact (has_gf_at _ _ _ _ _ R3 (nth_col 2 _ _ _ Hi))|]. split; [exact (has_gf_at _ _ _ _ _ R4 (nth_col 3 _ _ _ Hi))|].
      split; [exact (has_gf_at _ _ _ _ _ R5 (nth_col 4 _ _ _ Hi))|]. split; [exact (has_gf_at _ _ _ _ _ R6 (nth_col 5 _ _ _ Hi))|exact Logic.I].
    - destruct H as (_ & R1 & R2 & R3). apply cplx_col_seq in R1. destruct l as [|a [|b [|c [|e [|f [|g [|? ?]]]]]]]; try discriminate.
      destruct (has_gre_at _ _ _ _ _ R1 (nth_colc 0 _ _ _ Hi)) as [A1 A2]. destruct (has_gre_at _ _ _ _ _ R2 (nth_colc 1 _ _ _ Hi)) as [A3 A4].
      destruct (has_gre_at _ _ _ _ _ R3 (nth_colc 2 _ _ _ Hi)) as [A5 A6].
      apply (writes_line _ _ (fcells [a; b; c; e; f; g]) _ []); [reflexivity| |constructor]. cbn [fcells map cells_args app]. auto 10. }
  rewrite !unlines_cons'. reflexivity.
Qed.
Lemma modes_writes : forall d d1 m rest t, repr_modes d m ->
  (forall k, is_modal k = false -> dget d1 k = match dget d k with Some v => Some v | None => dget (defs55 m) k end) ->
  match m with Complex _ _ _ _ a b => has as_cplx d1 "modal_a" a /\ has as_cplx d1 "modal_b" b | _ => True end ->
  writes rest t -> writes (recs7_8 d1 (analysis m) ++ rest) ((cells_text (rec7 m) ++ [LF]) ++ (cells_text (fcells (rec8 m)) ++ [LF]) ++ t).
Proof.
  intros d d1 m rest t H G Gc Hr. destruct m as [lc n f mm vi hi|lc n f|s lc n e a b]; cbn [repr_modes analysis rec7 rec8] in *.
  - destruct H as (H1 & H2 & H3 & H4 & H5 & H6). unfold recs7_8. cbn [Z.eqb Pos.eqb app].
    apply (has_view _ _ _ _ _ _ _ G) in H1; [|reflexivity]. apply (has_view _ _ _ _ _ _ _ G) in H2; [|reflexivity]. apply (has_view _ _ _ _ _ _ _ G) in H3; [|reflexivity].
    eapply (has_view_or _ _ _ _ _ _ _ _ _ G) in H4; [|reflexivity|reflexivity|reflexivity].
    eapply (has_view_or _ _ _ _ _ _ _ _ _ G) in H5; [|reflexivity|reflexivity|reflexivity].
    eapply (has_view_or _ _ _ _ _ _ _ _ _ G) in H6; [|reflexivity|reflexivity|reflexivity].
    apply writes_line; [reflexivity|cbn [map cells_args app]; repeat split; auto using has_gi|].
    apply writes_line; [reflexivity|cbn [fcells map cells_args app]; repeat split; auto using has_gf|exact Hr].
  - destruct H as (H1 & H2 & H3). unfold recs7_8. cbn [Z.eqb Pos.eqb app].
    apply (has_view _ _ _ _ _ _ _ G) in H1; [|reflexivity]. apply (has_view _ _ _ _ _ _ _ G) in H2; [|reflexivity]. apply (has_view _ _ _ _ _ _ _ G) in H3; [|reflexivity].
    apply writes_line; [reflexivity|cbn [map cells_args app]; repeat split; auto using has_gi|].
    apply writes_line; [reflexivity|cbn [fcells map cells_args app]; repeat split; auto using has_gf|exact Hr].
  - destruct H as (H1 & H2 & H3 & _ & _). destruct Gc as [Ga Gb]. unfold recs7_8.
    assert (E2 : ((if s then 7 else 3) =? 2)%Z = false) by (destruct s; reflexivity). rewrite E2.
    assert (E5 : ((if s then 7 else 3) =? 5)%Z = false) by (destruct s; reflexivity). rewrite E5. cbn [app].
    apply (has_view _ _ _ _ _ _ _ G) in H1; [|reflexivity]. apply (has_view _ _ _ _ _ _ _ G) in H2; [|reflexivity]. apply (has_view _ _ _ _ _ _ _ G) in H3; [|reflexivity].
    destruct (has_gre _ _ _ H3), (has_gre _ _ _ Ga), (has_gre _ _ _ Gb).
    apply writes_line; [reflexivity|cbn [map cells_args app]; repeat split; auto using has_gi|].
    apply writes_line; [reflexivity|cbn [fcells map cells_args app]; auto 10|exact Hr].
Qed.
Lemma rows_view : forall d d1 m k rows,
  (forall k, is_modal k = false -> dget d1 k = match dget d k with Some v => Some v | None => dget (defs55 m) k end) ->
  repr_rows d k rows -> repr_rows d1 k rows.
Proof.
  intros d d1 m k rows G H.
  assert (E : has456 d1 = has456 d).
  { unfold has456, dmem. rewrite !G by reflexivity. unfold defs55.
    destruct m; destruct (dget d (KS "r4")), (dget d (KS "r5")), (dget d (KS "r6")); reflexivity. }
  destruct k; cbn [repr_rows] in *; try rewrite E; repeat match goal with H : _ /\ _ |- _ => destruct H end; repeat split; try assumption;
    (eapply has_view; [exact G|reflexivity|assumption]).
Qed.
Lemma ids_writes : forall d1 ks ss rest t, Forall2 (fun k s => has as_txt d1 k s) ks ss -> writes rest t ->
  writes (map (fun k => txt "%-80s\n" [ix d1 k]) ks ++ rest) (unlines (map (ljust 80) ss) ++ t).
Proof.
  intros d1 ks ss rest t H Hr. induction H as [|k s ks ss Hk _ IH]; [exact Hr|]. cbn [map app]. rewrite unlines_cons', <- app_assoc.
  change (ljust 80 s) with (cell_text (CS true 80 s)). rewrite <- (cells_one (CS true 80 s)). apply (writes_line _ _ [CS true 80 s]); [reflexivity|cbn [cells_args app]; auto using has_gs|exact IH].
Qed.

(* ------------------------------------------------------------------ *)
(** ** Reading *)

Lemma chop_row : forall l, Forall okf l -> parse_floats (chop 13 (length (cells_text (fcells l) ++ [LF]) / 13) (cells_text (fcells l) ++ [LF])) = Ok (map r6f l).
Proof.
  intros l H. assert (Hl : length (cells_text (fcells l)) = length l * 13).
  { rewrite cells_length by (apply fcells_width; assumption). unfold fcells. rewrite map_map. cbn [cell_width]. clear H.
    unfold list_sum. induction l as [|f l IH]; [reflexivity|]. cbn [map fold_right length]. rewrite IH. lia. }
  rewrite app_length, Hl. cbn [length].
  replace ((length l * 13 + 1) / 13) with (length l) by (apply Nat.div_unique with (r := 1); lia). clear Hl.
  assert (E : chop 13 (length l) (cells_text (fcells l) ++ [LF]) = map (fun f => rjust 13 (fmt_e false 5 f)) l).
  { generalize [LF]. intro tl. induction H as [|f l Hf _ IH]; [reflexivity|]. cbn [fcells map length chop]. rewrite cells_text_cons, <- app_assoc.
    assert (Hw : length (cell_text (CE 13 5 f)) = 13) by (apply rjust_length, fmt5_le; exact Hf).
    rewrite firstn_app_exact, skipn_app_exact by assumption. fold (fcells l). rewrite IH. reflexivity. }
  rewrite E. unfold parse_floats, rmap. rewrite map_map. apply rseq_map_ok. intros f _. apply py_float_rjust.
Qed.
Lemma np_rows_ok : forall k (rows : list (Z * list float)), Forall (fun w => Forall okf (snd w) /\ length (snd w) = k) rows ->
  np_rows (map (fun s : str => chop 13 (length s / 13) s) (map (fun w => cells_text (fcells (snd w)) ++ [LF]) rows)) = Ok (flat_map (fun w => map r6f (snd w)) rows).
Proof.
  intros k rows H. unfold np_rows, rmap. rewrite !map_map. rewrite (rseq_map_ok _ _ _ (fun w => map r6f (snd w))).
  - cbn [rbind]. rewrite flat_map_concat_map. destruct rows as [|w rows]; [reflexivity|]. cbn [map].
    match goal with |- (if ?b then _ else _) = _ => replace b with true; [reflexivity|] end.
    symmetry. apply forallb_forall. intros x Hx. assert (Hl : forall x, In x (map (fun w => map r6f (snd w)) (w :: rows)) -> length x = k).
    { intros y Hy. apply in_map_iff in Hy as (q & <- & Hq). rewrite map_length. rewrite Forall_forall in H. apply H. assumption. }
    rewrite (Hl x Hx), (Hl (map r6f (snd w))) by (left; reflexivity). apply Nat.eqb_refl.
  - intros w Hw. apply chop_row. rewrite Forall_forall in H. apply H. assumption.
Qed.
Lemma node_ints : forall (rows : list (Z * list float)), parse_ints (map (fun w => cells_text [CI 10 (fst w)] ++ [LF]) rows) = Ok (map fst rows).
Proof.
  intro rows. unfold parse_ints, rmap. rewrite map_map. apply rseq_map_ok. intros w _. rewrite cells_one. cbn [cell_text].
  unfold rjust. rewrite <- app_assoc. apply py_int_padded; [apply blanks_num|reflexivity].
Qed.


Definition pre55 (a b c e f : pyval) (mo an ch sp dt nn : Z) : dict :=
  [(KS "type", VInt 55); (KS "id1", a); (KS "id2", b); (KS "id3", c); (KS "id4", e); (KS "id5", f);
   (KS "model_type", VInt mo); (KS "analysis_type", VInt an); (KS "data_ch", VInt ch); (KS "spec_data_type", VInt sp);
   (KS "data_type", VInt dt); (KS "n_data_per_node", VInt nn)].
Lemma r6c_join : forall p, okfin (fst p) -> okfin (snd p) -> vcjoin (r6f (fst p)) (r6f (snd p)) = r6c p.
Proof.
  intros p [H1 H2] [H3 H4]. unfold r6c, r6f. apply vcjoin_parts; [apply rd_finite|apply rd_valid|apply rd_finite]; try assumption; exact short5.
Qed.
Lemma modes_read : forall m (lines : list str) a b c e f mo ch sp dt nn, wf_modes m ->
  nth_error lines 8 = Some (cells_text (rec7 m) ++ [LF]) -> nth_error lines 9 = Some (cells_text (fcells (rec8 m)) ++ [LF]) ->
  read7_8 lines (pre55 a b c e f mo (analysis m) ch sp dt nn) = Ok (pre55 a b c e f mo (analysis m) ch sp dt nn ++ out_modes m).
Proof.
  intros m lines a b c e f mo ch sp dt nn Hw H7 H8. destruct (wf_modes_lines m Hw) as [[W7 _] [W8 _]].
  unfold read7_8. change (ix (pre55 a b c e f mo (analysis m) ch sp dt nn) "analysis_type") with (@Ok pyval (VInt (analysis m))). cbn [rbind py_eqZ].
  destruct m as [lc n fr mm vi hi|lc n fr|s lc n ei ma mb]; cbn [analysis wf_modes] in *.
  - cbn [Z.eqb Pos.eqb]. unfold H. cbn [header_recs h_line h_min h_widths h_types h_names]. unfold ln. rewrite H7, H8. cbn [of_option rbind].
    hdr_cells (map (CI 10) [2; 4; lc; n]%Z) [10; 10; 10; 10]%nat [None; None; Some (VInt lc); Some (VInt n); None; None; None; None] W7.
    hdr_cells (fcells [fr; mm; vi; hi]) [13; 13]%nat [Some (VFloat (r6f fr)); Some (VFloat (r6f mm)); Some (VFloat (r6f vi)); Some (VFloat (r6f hi)); None; None] W8.
    reflexivity.
  - cbn [Z.eqb Pos.eqb orb]. unfold H. cbn [header_recs h_line h_min h_widths h_types h_names]. unfold ln. rewrite H7, H8. cbn [of_option rbind].
    hdr_cells (map (CI 10) [2; 1; lc; n]%Z) [10; 10; 10; 10]%nat [None; None; Some (VInt lc); Some (VInt n); None; None; None; None] W7.
    hdr_cells (fcells [fr]) [13; 13; 13; 13; 13]%nat [Some (VFloat (r6f fr)); None; None; None; None; None] W8.
    reflexivity.
  - assert (E2 : ((if s then 7 else 3) =? 2)%Z = false) by (destruct s; reflexivity). rewrite E2.
    assert (E3 : (((if s then 7 else 3) =? 3) || ((if s then 7 else 3) =? 7))%Z = true) by (destruct s; reflexivity). rewrite E3.
    unfold H. cbn [header_recs h_line h_min h_widths h_types h_names]. unfold ln. rewrite H7, H8. cbn [of_option rbind].
    hdr_cells (map (CI 10) [2; 6; lc; n]%Z) [10; 10; 10; 10]%nat [None; None; Some (VInt lc); Some (VInt n); None; None; None; None] W7.
    hdr_cells (fcells [fst ei; snd ei; fst ma; snd ma; fst mb; snd mb]) (@nil nat)
      [Some (VFloat (r6f (fst ei))); Some (VFloat (r6f (snd ei))); Some (VFloat (r6f (fst ma))); Some (VFloat (r6f (snd ma))); Some (VFloat (r6f (fst mb))); Some (VFloat (r6f (snd mb)))] W8.
    destruct Hw as (_ & _ & _ & Hf).
    inversion Hf as [|? ? F1 Hf1]; subst. inversion Hf1 as [|? ? F2 Hf2]; subst. inversion Hf2 as [|? ? F3 Hf3]; subst.
    inversion Hf3 as [|? ? F4 Hf4]; subst. inversion Hf4 as [|? ? F5 Hf5]; subst. inversion Hf5 as [|? ? F6 _]; subst.
    set (d0 := dupdate _ _). unfold cjoin_keys.
    change (get_float d0 "modal_a_r") with (@Ok float (r6f (fst ma))). change (get_float d0 "modal_a_i") with (@Ok float (r6f (snd ma))).
    cbn [rbind]. rewrite r6c_join by assumption. set (d1 := dput d0 _ _).
    change (get_float d1 "modal_b_r") with (@Ok float (r6f (fst mb))). change (get_float d1 "modal_b_i") with (@Ok float (r6f (snd mb))).
    cbn [rbind]. rewrite r6c_join by assumption. set (d2 := dput d1 _ _).
    change (get_float d2 "eig_r") with (@Ok float (r6f (fst ei))). change (get_float d2 "eig_i") with (@Ok float (r6f (snd ei))).
    cbn [rbind]. rewrite r6c_join by assumption. reflexivity.
Qed.
Lemma every_col : forall k n rows, k < n -> Forall (fun w => Forall okf (snd w) /\ length (snd w) = n) rows ->
  every k n (flat_map (fun w : Z * list float => map r6f (snd w)) rows) = map r6f (colf k rows).
Proof.
  intros k n rows Hk H. unfold colf. rewrite map_map. apply every_table; [assumption|]. intros w Hw. rewrite Forall_forall in H. destruct (H w Hw) as [_ Hl].
  rewrite map_length. split; [assumption|]. apply map_nth_error. apply nth_error_nth'. lia.
Qed.
Lemma join_col : forall k rows, k < 3 -> Forall (fun w => Forall okfin (snd w) /\ length (snd w) = 6) rows ->
  np_cjoin (map r6f (colf (2 * k) rows)) (map r6f (colf (2 * k + 1) rows)) = Ok (cplx_out k rows).
Proof.
  intros k rows Hk H. unfold np_cjoin, bcast2, cplx_out, colf, colc. rewrite !map_length, Nat.eqb_refl. cbn [rbind]. f_equal. f_equal.
  rewrite !map_map. induction H as [|w rows [Hw Hl] _ IH]; [reflexivity|]. cbn [map combine fst snd]. f_equal; [|exact IH].
  rewrite Forall_forall in Hw. apply (r6c_join (_, _)); apply Hw, nth_In; lia.
Qed.

Lemma forall2_5 : forall A B (P : A -> B -> Prop) a b c d e l, Forall2 P [a; b; c; d; e] l ->
  exists v w x y z, l = [v; w; x; y; z] /\ P a v /\ P b w /\ P c x /\ P d y /\ P e z.
Proof.
  intros A B P a b c d e l H. inversion H as [|? v ? l1 P1 H1]; subst. inversion H1 as [|? w ? l2 P2 H2]; subst. inversion H2 as [|? x ? l3 P3 H3]; subst.
  inversion H3 as [|? y ? l4 P4 H4]; subst. inversion H4 as [|? z ? l5 P5 H5]; subst. inversion H5; subst. exists v, w, x, y, z. auto 10.
Qed.

Lemma set55 : forall c m fd ho d r, repr55 d r -> wf55 r -> text_set c m fd ho d 55 (type_hdr 55) (lines55 r) (read55 r).
Proof.
  intros c m fd ho d r (Hty & Hdat & R1 & R2 & R3 & R4 & R5 & R6 & R7 & R8) Hw.
  destruct (type_hdr_ok 55 ltac:(lia)) as [Ht Hh]. destruct (wf_head55 r Hw) as [Wh Oh].
  destruct (wf_modes_lines (v_modes r) (proj1 (proj2 (proj2 Hw)))) as [[W7 O7] [W8 O8]].
  assert (Hrows : Forall okline (flat_map row_lines (v_rows r))).
  { rewrite Forall_forall. intros x Hx. apply in_flat_map in Hx as (w & Hin & Hx). assert (O := row_lines_ok r w Hw Hin). rewrite Forall_forall in O. auto. }
  assert (Hok : Forall okline (type_hdr 55 :: lines55 r)).
  { constructor; [assumption|]. unfold lines55. apply Forall_app. split.
    - rewrite Forall_map. eapply Forall_impl; [|exact (proj1 Hw)]. intros s Hs. apply text_ok_line. assumption.
    - repeat (constructor; [assumption|]). assumption. }
  constructor; [|assumption|assumption|].
  - rewrite (set_items_text c m fd d (VInt 55) Hty Hdat). change (write_dispatch c m fd (VInt 55) d) with (write55 d). unfold write55.
    destruct (prep55_ok d (v_modes r) R3 R6) as (d1 & -> & G & Gc).
    assert (V := rows_view _ _ _ _ _ G R8). destruct (repr_rows_kind _ _ _ V) as [Ec Es].
    cbn [wp_items]. fold (has456 d1). rewrite Ec, Es.
    apply (has_view _ _ _ _ _ _ _ G) in R7; [|reflexivity].
    assert (HL := has_len _ _ _ _ _ R7). rewrite HL. rewrite map_length.
    rewrite hdr_writes. eapply writes_eq.
    { apply writes_consr; [reflexivity|]. apply (ids_writes d1 id_keys (v_ids r)).
      { apply forall2_5 in R1 as (v & w & x & y & z & -> & P1 & P2 & P3 & P4 & P5). repeat constructor;
        (eapply has_view_or; [exact G|reflexivity|eassumption|reflexivity|reflexivity]). }
      apply (writes_line _ _ (head55 r)); [reflexivity| |].
      { cbn [head55 map cells_args app].
        split; [apply has_gi; eapply has_view_or; [exact G|reflexivity|eassumption|reflexivity|reflexivity]|].
        split; [apply has_gi; apply (has_view _ _ _ _ _ _ _ G) in R3 as (v & E & Hv & _); [exists v; auto|reflexivity]|].
        split; [apply has_gi; eapply has_view; [exact G|reflexivity|assumption]|].
        split; [apply has_gi; eapply has_view; [exact G|reflexivity|assumption]|].
        destruct (v_kind r); repeat split. }
      apply (modes_writes d d1 (v_modes r)); [assumption|assumption|assumption|].
      apply writes_app; [|exact end_writes]. apply (writes_rows _ _ row_lines). intros i w Hi.
      eapply node_writes; [exact R7|exact V|exact Hi|]. apply (wf_row r w Hw). eapply nth_error_In. exact Hi. }
    unfold lines55, type_hdr. rewrite unlines_cons', unlines_app. cbn [app]. rewrite !unlines_cons'. rewrite <- !app_assoc. reflexivity.
  - intros block _ Hb. unfold extract_set. rewrite Hb. cbn [Z.eqb Pos.eqb]. unfold extract55.
    rewrite split_text by assumption. cbv beta iota zeta. 
    apply forall2_5 in R1 as (v & w & x & y & z & Ei & _). unfold lines55, read55. rewrite Ei.
    set (rl := flat_map row_lines (v_rows r)) in *. unfold H. cbn [map app].
    cbn [header_recs h_line h_min h_widths h_types h_names]. cbn [ln nth_error of_option rbind]. rewrite !header_str80. cbn [rbind].
    hdr_cells (head55 r) (@nil nat) (map (fun z => Some (VInt z)) [v_model r; analysis (v_modes r); v_ch r; v_spec r; dtype55 (v_kind r); per_node (v_kind r)]) Wh.
    match goal with |- context [read7_8 ?ll ?dd] => change dd with (pre55 (VStr (strip (firstn 80 v))) (VStr (strip (firstn 80 w))) (VStr (strip (firstn 80 x)))
      (VStr (strip (firstn 80 y))) (VStr (strip (firstn 80 z))) (v_model r) (analysis (v_modes r)) (v_ch r) (v_spec r) (dtype55 (v_kind r)) (per_node (v_kind r)));
      rewrite (modes_read (v_modes r) ll) by (reflexivity || apply Hw) end.
    cbn [rbind skipn].
    assert (Eb : splitlines_str true (join (map (fun l : list N => l ++ [LF]) rl)) =
      flat_map (fun w => [cells_text [CI 10 (fst w)] ++ [LF]; cells_text (fcells (snd w)) ++ [LF]]) (v_rows r)).
    { assert (Ej : join (map (fun l : list N => l ++ [LF]) rl) = unlines rl).
      { unfold unlines, join. reflexivity. }
      rewrite Ej. unfold splitlines_str. rewrite splitlines_unlines; [|reflexivity|rewrite forallb_forall; intros q Hq; rewrite Forall_forall in Hrows; apply Hrows; assumption].
      unfold rl. rewrite !flat_map_concat_map, concat_map, map_map. reflexivity. }
    rewrite Eb.
    rewrite (every_table1 _ _ _ 0 2 (fun w => cells_text [CI 10 (fst w)] ++ [LF])) by (lia || (intro; split; reflexivity)).
    rewrite (every_table1 _ _ _ 1 2 (fun w => cells_text (fcells (snd w)) ++ [LF])) by (lia || (intro; split; reflexivity)).
    assert (Hr : Forall (fun w => Forall okf (snd w) /\ length (snd w) = row_len (v_kind r)) (v_rows r)).
    { rewrite Forall_forall. intros q Hq. destruct (wf_row r q Hw Hq) as (Q1 & Q2 & _). auto. }
    rewrite node_ints. cbn [rbind]. match goal with |- context [np_rows ?t] => replace (np_rows t) with (Ok (flat_map (fun w => map r6f (snd w)) (v_rows r))) by (symmetry; exact (np_rows_ok _ _ Hr)) end. cbn [rbind].
    destruct (v_kind r) eqn:Ek; cbn [dtype55 per_node row_len out_rows] in *.
    + match goal with |- context [ix ?dd "data_type"] => change (ix dd "data_type") with (@Ok pyval (VInt 2)); change (ix dd "n_data_per_node") with (@Ok pyval (VInt 3)) end.
      cbn [rbind py_eqZ Z.eqb Pos.eqb]. rewrite (every_col 0 3), (every_col 1 3), (every_col 2 3) by (assumption || lia).
      destruct (v_modes r); reflexivity.
    + match goal with |- context [ix ?dd "data_type"] => change (ix dd "data_type") with (@Ok pyval (VInt 2)); change (ix dd "n_data_per_node") with (@Ok pyval (VInt 6)) end.
      cbn [rbind py_eqZ Z.eqb Pos.eqb]. rewrite (every_col 0 6), (every_col 1 6), (every_col 2 6), (every_col 3 6), (every_col 4 6), (every_col 5 6) by (assumption || lia).
      destruct (v_modes r); reflexivity.
    + match goal with |- context [ix ?dd "data_type"] => change (ix dd "data_type") with (@Ok pyval (VInt 5)); change (ix dd "n_data_per_node") with (@Ok pyval (VInt 3)) end.
      assert (Hc : Forall (fun w => Forall okfin (snd w) /\ length (snd w) = 6) (v_rows r)).
      { rewrite Forall_forall. intros q Hq. destruct (wf_row r q Hw Hq) as (_ & Q2 & _ & _ & Q3). rewrite Ek in *. split; [apply Q3; reflexivity|exact Q2]. }
      cbn [rbind py_eqZ Z.eqb Pos.eqb]. rewrite (every_col 0 6), (every_col 1 6), (every_col 2 6), (every_col 3 6), (every_col 4 6), (every_col 5 6) by (assumption || lia).
      assert (J0 := join_col 0 _ ltac:(lia) Hc). assert (J1 := join_col 1 _ ltac:(lia) Hc). assert (J2 := join_col 2 _ ltac:(lia) Hc). cbn [Nat.mul Nat.add] in J0, J1, J2.
      rewrite J0, J1, J2. cbn [rbind]. destruct (v_modes r); reflexivity.
Qed.
