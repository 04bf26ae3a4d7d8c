(** The record formats that the documentation texts of the package give (the
    get_structure functions), and when a line of a file has such a format. *)
From Coq Require Import String List NArith ZArith Bool Lia.
Import ListNotations.
From Verif Require Import PyBase PyNum PyVal Utf8 Tools DsNodes DsHeaders DsGroups Ds55 Ds58 Ds2414 Uff Facts IntFacts FloatFacts DecFacts FloatText Scan Container Append
  ContainerThms Utf8Facts Lines Stored Cells Rows RtNodes RtCs RtHeads RtElems RtGroups RtNodal RtFun RtFunSet RtAnalysis Witness
  PropNodes PropHeads PropGroups PropNodal PropFun PropAnalysis PropHistory.
From Coq Require Import Lia.
Open Scope string_scope.
Open Scope list_scope.
Open Scope nat_scope.

(* ------------------------------------------------------------------ *)
(** ** Formats *)

(** A field of a FORTRAN format with the value it shows: [DI w z] is Iw, [DR w p x]
    is Ew.p or Dw.p with one digit before the point (p + 1 significant digits),
    [DA w s] is wA1 (also: (w/2)A2), [DX w] is wX, [DT w s] is a text of w
    characters that has a record for itself. *)
Inductive field :=
| DI (w : nat) (z : Z) | DR (w p : nat) (x : float) | DA (w : nat) (s : str) | DX (w : nat) | DT (w : nat) (s : str).

(** The columns [t] show the field: as many columns as the format says; integers
    are decimal numerals, reals are read (with e, E or D before the exponent) as
    the value rounded to the digits of the format; texts are filled up with
    blanks on one side.  The blanks after a text that has the record for itself
    may be left out. *)
Definition shows (t : str) (f : field) : Prop :=
  match f with
  | DI w z => length t = w /\ forallb (fun c => is_digit c || (c =? 45)%N || (c =? 32)%N) t = true /\ py_int t = Ok z
  | DR w p x => length t = w /\ py_float (replace1 68 101 t) = Ok (rd p x)
  | DA w s => length t = w /\ (t = s ++ repeat blank (w - length s) \/ t = repeat blank (w - length s) ++ s)
  | DX w => t = repeat blank w
  | DT w s => length t <= w /\ (t = s \/ t = s ++ repeat blank (w - length s))
  end.
(** A line made of these fields from left to right. *)
Definition record (line : str) (fs : list field) : Prop := ~ In LF line /\ exists cols, line = concat cols /\ Forall2 shows cols fs.
(** A block: the delimiter, the type in six columns, the records, the delimiter. *)
Definition conforms (text : str) (ty : Z) (recs : list (list field)) : Prop :=
  exists t0 n ls, text = unlines (TAG :: (t0 ++ repeat blank n) :: ls ++ [TAG]) /\ shows t0 (DI 6 ty) /\ Forall2 record ls recs.

Definition I10s (l : list Z) : list field := map (DI 10) l.
Definition E13s (l : list float) : list field := map (DR 13 5) l.
Definition D25s (l : list float) : list field := map (DR 25 16) l.

(** dataset_15.py:14-22 *)
Definition doc15 (n : node) : list (list field) :=
  [[DI 10 (n_num n); DI 10 (n_def n); DI 10 (n_disp n); DI 10 (n_color n); DR 13 5 (n_x n); DR 13 5 (n_y n); DR 13 5 (n_z n)]].
(** dataset_18.py:14-34 *)
Definition doc18 (c : cs18) : list (list field) :=
  [I10s [c_num c; c_type c; c_ref c; c_color c; c_method c]; [DT 40 (c_name c)];
   E13s (pt_list (c_o c) ++ pt_list (c_x c)); E13s (pt_list (c_xz c))].
(** dataset_82.py:14-38 *)
Definition doc82 (t : trace) : list (list field) :=
  [I10s [t_num t; Z.of_nat (length (t_nodes t)); t_color t]; [DT 80 (t_id t)]] ++ map I10s (rows_of 8 (t_nodes t)).
(** dataset_151.py:15-38 *)
Definition doc151 (h : head151) : list (list field) :=
  [[DT 80 (a_model h)]; [DT 80 (a_desc h)]; [DT 80 (a_app h)];
   [DA 10 (a_date1 h); DA 10 (a_time1 h); DI 10 (a_v1 h); DI 10 (a_v2 h); DI 10 (a_ft h)];
   [DA 10 (a_date2 h); DA 10 (a_time2 h)]; [DT 80 (a_prog h)]; [DA 10 (a_date3 h); DA 10 (a_time3 h)]].
(** dataset_164.py:14-37; record 2 continues on a second line (3D25.17). *)
Definition doc164 (u : units) : list (list field) :=
  [[DI 10 (u_code u); DA 20 (u_desc u); DI 10 (u_mode u)]; D25s [u_len u; u_force u; u_temp u]; D25s [u_off u]].
(** dataset_1858.py:13-98 *)
Definition doc1858_1 (q : qual) : list field := map (DI 12) [q_rec q; q_oct q; q_run q; 0; 0; 0]%Z.
Definition doc1858_tl (q : qual) : list (list field) :=
  [map (DI 6) (q_ints q ++ [0; 0; 0]%Z); map (DR 15 7) (q_z q ++ [f_zero]); map (DR 15 7) (q_user q); map (DR 15 7) (repeat f_zero 5);
   [DA 4 (q_resp q); DX 2; DA 4 (RtHeads.q_ref q)]; [DT 80 (lit "NONE")]].
(** dataset_2400.py:14-36 *)
Definition doc2400 (h : mhead) : list (list field) :=
  [[DI 12 (k_uid h); DI 6 (k_et h); DI 6 (k_es h); DI 12 (k_ver h)]; [DT 80 (k_name h)]; [DT 80 (k_part h)]; map (DI 2) (k_mask h);
   [DA 10 (k_date h); DA 10 (k_time h); DI 12 (k_vid h); DI 12 (k_iid h); DI 12 (k_ppu h)]; [DI 12 (k_opt h)]].
(** dataset_2411.py:13-23 *)
Definition doc2411 (n : node) : list (list field) :=
  [I10s [n_num n; n_def n; n_disp n; n_color n]; D25s [n_x n; n_y n; n_z n]].
(** dataset_2412.py:14-37: nodes eight to a line. *)
Definition doc2412 (e : elem) : list (list field) :=
  I10s [e_num e; e_desc e; e_phys e; e_mat e; e_color e; e_count e] ::
  (if is_beam e then [I10s (let '(a, b, c) := e_beam e in [a; b; c])] else []) ++ map I10s (rows_of 8 (e_nodes e)).
(** dataset_2420.py:13-42: the last field of records 1 and 3 has no meaning and may be left out. *)
Definition doc2420 (s : cs2420) : list (list field) :=
  [I10s [s_label s; s_type s; s_color s]; [DT 80 (s_name s)]] ++ map D25s (mat_rows (s_mat s)).
Definition doc2420p (p : part) : list (list field) := [[DI 10 (p_uid p)]; [DT 80 (RtCs.p_name p)]] ++ flat_map doc2420 (p_cs p).
(** dataset_2429.py:14-37, dataset_2467.py:12-38: constraint, restraint, load, dof,
    temperature and contact set; eight numbers to a line. *)
Definition doc_group (g : group) (ents : list (list Z)) : list (list field) :=
  [I10s (p_num g :: p_sets g ++ [Z.of_nat (length ents)]); [DT 40 (RtGroups.p_name g)]] ++ map I10s (rows_of 8 (concat ents)).
Definition doc2467 (l : list (group * list ent4)) : list (list field) :=
  flat_map (fun g => doc_group (fst g) (map (fun '(code, tag, leaf, comp) => [code; tag; leaf; comp]) (snd g))) l.
Definition doc2429 (g : group) (es : list (Z * Z)) : list (list field) := doc_group g (map (fun e => [fst e; snd e]) es).
(** dataset_55.py:13-203; values of a node six to a line. *)
Definition doc55 (r : data55) : list (list field) :=
  map (fun s => [DT 80 s]) (v_ids r) ++
  [I10s [v_model r; analysis (v_modes r); v_ch r; v_spec r; match v_kind r with Cplx3 => 5 | _ => 2 end; match v_kind r with Real6 => 6 | _ => 3 end]%Z] ++
  match v_modes r with
  | Normal lc n f mm vi hi => [I10s [2; 4; lc; n]%Z; E13s [f; mm; vi; hi]]
  | Response lc n f => [I10s [2; 1; lc; n]%Z; E13s [f]]
  | Complex _ lc n e a b => [I10s [2; 6; lc; n]%Z; E13s [fst e; snd e; fst a; snd a; fst b; snd b]]
  end ++
  flat_map (fun w => [DI 10 (fst w)] :: map E13s (rows_of 6 (snd w))) (v_rows r).
(** dataset_58.py:16-195: records 1 to 11 and the eight cases of record 12. *)
Definition doc_axis (a : axis) : list field :=
  [DI 10 (x_spec a); DI 5 (x_len a); DI 5 (x_force a); DI 5 (x_temp a); DX 1; DA 20 (x_lab a); DX 1; DA 20 (x_units a)].
Definition doc58_head (r : func58) : list (list field) :=
  map (fun s => [DT 80 s]) (q_ids r) ++
  [[DI 5 (q_type r); DI 10 (q_id r); DI 5 (q_ver r); DI 10 (q_lc r); DX 1; DA 10 (q_rsp r); DI 10 (q_rspn r); DI 4 (q_rspd r);
    DX 1; DA 10 (q_ref r); DI 10 (q_refn r); DI 4 (q_refd r)];
   [DI 10 (match q_cplx r, q_dbl r with false, false => 2 | false, true => 4 | true, false => 5 | true, true => 6 end)%Z;
    DI 10 (Z.of_nat (length (q_pts r))); DI 10 (if q_even r then 1 else 0)%Z; DR 13 5 (q_min r); DR 13 5 (q_inc r); DR 13 5 (q_zval r)];
   doc_axis (q_abs r); doc_axis (q_ord r); doc_axis (q_den r); doc_axis (q_zax r)].
(** Points: (abscissa, (real, imaginary part)); values without NaN and infinities. *)
Definition clean (p : pt) : pt := (fst p, (nan_to_num1 (fst (snd p)), nan_to_num1 (snd (snd p)))).
Definition doc58_data (cplx even dbl : bool) (ps : list pt) : list (list field) :=
  let re p := fst (snd p) in let im p := snd (snd p) in
  let line per (fs : pt -> list field) := map (fun row => flat_map fs row) (rows_of per ps) in
  match cplx, dbl, even with
  | false, false, true => line 6 (fun p => [DR 13 5 (re p)])
  | false, false, false => line 3 (fun p => [DR 13 5 (fst p); DR 13 5 (re p)])
  | true, false, true => line 3 (fun p => [DR 13 5 (re p); DR 13 5 (im p)])
  | true, false, false => line 2 (fun p => [DR 13 5 (fst p); DR 13 5 (re p); DR 13 5 (im p)])
  | false, true, true => line 4 (fun p => [DR 20 11 (re p)])
  | false, true, false => line 2 (fun p => [DR 13 5 (fst p); DR 20 11 (re p)])
  | true, true, true => line 2 (fun p => [DR 20 11 (re p); DR 20 11 (im p)])
  | true, true, false => line 1 (fun p => [DR 13 5 (fst p); DR 20 11 (re p); DR 20 11 (im p)])
  end.
Definition doc58 (r : func58) : list (list field) := doc58_head r ++ doc58_data (q_cplx r) (q_even r) (q_dbl r) (map clean (q_pts r)).
(** dataset_2414.py:14-216; values six to a line. *)
Definition doc2414 (a : ana) : list (list field) :=
  [[DI 10 (n_label a)]; [DT 80 (n_name a)]; [DI 10 (n_loc a)]] ++ map (fun s => [DT 80 s]) (n_ids a) ++
  [I10s [n_model a; n_an a; n_dc a; n_rt a; n_dt a; n_nv a]; I10s (n_r10 a); I10s (n_r11 a); E13s (n_r12 a); E13s (n_r13 a)] ++
  match n_body a with
  | AFreq rows | ANodes rows => flat_map (fun w => [DI 10 (fst w)] :: map E13s (rows_of 6 (snd w))) rows
  | AElems rows => flat_map (fun w => I10s [fst w; Z.of_nat (length (snd w))] :: map E13s (rows_of 6 (snd w))) rows
  | AOn els => flat_map (fun e => I10s [o_num e; o_exp e; o_nodes e; o_per e] :: flat_map (fun row => map E13s (rows_of 6 row)) (o_rows e)) els
  | ANone => []
  end.

Definition documented (x : content) : list (list field) :=
  match x with
  | X15 l => flat_map doc15 l | X18 l => flat_map doc18 l | X55 r => doc55 r | X58 _ r => doc58 r | X82 t => doc82 t
  | X151 h => doc151 h | X164 u => doc164 u | X1858 q => doc1858_1 q :: doc1858_tl q | X2400 h => doc2400 h
  | X2411 l => flat_map doc2411 l | X2412 l => flat_map doc2412 l | X2414 a => doc2414 a | X2420 p => doc2420p p
  | X2429 g es => doc2429 g es | X2467 l => doc2467 l
  end.
(** Sets for which the formats are kept: not 1858 (first record), not 58b (data
    is binary), elements of 1 to 8 nodes, lines of 1 to 6 values in 2414, texts
    that are not longer than their record. *)
Definition few {A} (k : nat) (l : list A) : Prop := 1 <= length l <= k.
Definition fit (f : field) : Prop := match f with DT w s => length s <= w | _ => True end.
Definition in_format (x : content) : Prop :=
  Forall (Forall fit) (documented x) /\
  match x with
  | X1858 _ | X58 true _ => False
  | X2412 l => Forall (fun e => few 8 (e_nodes e)) l
  | X2414 a => match n_body a with
      | AFreq _ | ANone => True
      | ANodes rows | AElems rows => Forall (fun w => few 6 (snd w)) rows
      | AOn els => Forall (fun e => Forall (few 6) (o_rows e)) els
      end
  | _ => True
  end.
