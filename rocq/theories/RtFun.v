(** Storing and reading back functions at nodal degrees of freedom (data set 58). *)
From Verif Require Import PyBase PyNum PyVal Utf8 Tools DsNodes DsHeaders Ds55 Ds58 Uff Facts IntFacts FloatFacts DecFacts FloatText FloatExact CplxFacts DictFacts
  Scan Container Append ContainerThms Utf8Facts Lines Stored Cells Rows RtNodes RtCs RtHeads RtGroups RtNodal.
From Coq Require Import Lia.
Open Scope nat_scope.
Open Scope list_scope.

Record axis := { x_spec : Z; x_len : Z; x_force : Z; x_temp : Z; x_lab : str; x_units : str }.
(** [q_pts]: abscissa, real and imaginary part of the ordinate (the latter only
    used if [q_cplx]).  [q_min], [q_inc]: first abscissa and increment as written. *)
Record func58 := { q_ids : list str; q_type : Z; q_id : Z; q_ver : Z; q_lc : Z; q_rsp : str; q_rspn : Z; q_rspd : Z;
  q_ref : str; q_refn : Z; q_refd : Z; q_cplx : bool; q_dbl : bool; q_even : bool; q_min : float; q_inc : float; q_zval : float;
  q_abs : axis; q_ord : axis; q_den : axis; q_zax : axis; q_pts : list (float * (float * float)) }.
Definition odt58 (r : func58) : Z := match q_cplx r, q_dbl r with false, false => 2 | false, true => 4 | true, false => 5 | true, true => 6 end%Z.

Definition as_truth (v : pyval) (b : bool) : Prop := truthy v = Ok b.
Definition repr_axis (d : dict) (p : string) (a : axis) : Prop :=
  has_or as_int d (p ++ "_len_unit_exp") (x_len a) 0%Z /\ has_or as_int d (p ++ "_force_unit_exp") (x_force a) 0%Z /\
  has_or as_int d (p ++ "_temp_unit_exp") (x_temp a) 0%Z /\ has_or as_txt d (p ++ "_axis_lab") (x_lab a) (lit "NONE") /\
  has_or as_txt d (p ++ "_axis_units_lab") (x_units a) (lit "NONE").
(** Abscissas: floats, or integers (whose difference is taken before the
    conversion to float). *)
Definition times (b : bool) (f : float) : float := if b then f else S754_zero (fsign f).
Definition abscissa (v : pyval) (even : bool) (xs : list float) (mn inc : float) : Prop :=
  (exists x0 x1 rest, to_seq v = Ok (map VFloat xs) /\ xs = x0 :: x1 :: rest /\
     f_finite (f_sub x1 x0) = true /\ mn = times even x0 /\ inc = times even (f_sub x1 x0)) \/
  (exists z0 z1 rest, to_seq v = Ok (map VInt (z0 :: z1 :: rest)) /\ xs = map float_of_Z (z0 :: z1 :: rest) /\
     Forall (fun z => (Z.abs z < 2 ^ 52)%Z) (z0 :: z1 :: rest) /\
     mn = (if even then float_of_Z z0 else f_zero) /\ inc = (if even then float_of_Z (z1 - z0) else f_zero)).
(** Ordinates: an array or a list numpy turns into a real or complex array. *)
Definition ordinates (cplx : bool) (v : pyval) (l : list (float * float)) : Prop :=
  match v with VArr _ _ | VList _ => True | _ => False end /\
  exists dt vs, np_asarray v = Ok (dt, vs) /\ (dt = DCplx <-> cplx = true) /\
    if cplx then Forall2 as_cplx vs l else Forall2 as_flt vs (map fst l).
Definition repr58 (fd bin : bool) (d : dict) (r : func58) : Prop :=
  dget d (KS "type") = Some (VInt 58) /\
  Forall2 (fun k s => has_or as_txt d k s (lit "NONE")) id_keys (q_ids r) /\
  has is_num d "func_type" (q_type r) /\ has_or as_int d "func_id" (q_id r) 0%Z /\ has_or as_int d "ver_num" (q_ver r) 0%Z /\
  has_or as_int d "load_case_id" (q_lc r) 0%Z /\ has_or as_txt d "rsp_ent_name" (q_rsp r) (lit "NONE") /\ has as_int d "rsp_node" (q_rspn r) /\
  has as_int d "rsp_dir" (q_rspd r) /\ has_or as_txt d "ref_ent_name" (q_ref r) (lit "NONE") /\ has as_int d "ref_node" (q_refn r) /\
  has as_int d "ref_dir" (q_refd r) /\
  (if fd then q_dbl r = true else has is_num d "ord_data_type" (odt58 r)) /\
  has_or as_truth d "abscissa_spacing" (q_even r) false /\ has_or as_flt d "z_axis_value" (q_zval r) f_zero /\ has_or as_truth d "binary" bin false /\
  has_or as_int d "abscissa_spec_data_type" (x_spec (q_abs r)) 0%Z /\ has_or as_int d "ordinate_spec_data_type" (x_spec (q_ord r)) 0%Z /\
  has as_int d "orddenom_spec_data_type" (x_spec (q_den r)) /\ has_or as_int d "z_axis_spec_data_type" (x_spec (q_zax r)) 0%Z /\
  repr_axis d "abscissa" (q_abs r) /\ repr_axis d "ordinate" (q_ord r) /\ repr_axis d "orddenom" (q_den r) /\ repr_axis d "z_axis" (q_zax r) /\
  (exists v, dget d (KS "x") = Some v /\ abscissa v (q_even r) (map fst (q_pts r)) (q_min r) (q_inc r)) /\
  (exists v, dget d (KS "data") = Some v /\ ordinates (q_cplx r) v (map snd (q_pts r))).

Definition wf_axis (a : axis) : Prop := fits 10 (x_spec a) /\ fits 5 (x_len a) /\ fits 5 (x_force a) /\ fits 5 (x_temp a) /\
  plain (x_lab a) /\ length (x_lab a) <= 20 /\ text_ok (x_units a) /\ length (x_units a) <= 20.
Definition wf58 (r : func58) : Prop :=
  Forall text_ok (q_ids r) /\ In (q_type r) [0; 1; 2; 3; 4; 6; 9]%Z /\ fits 10 (q_id r) /\ fits 5 (q_ver r) /\ fits 10 (q_lc r) /\
  plain (q_rsp r) /\ length (q_rsp r) <= 10 /\ fits 10 (q_rspn r) /\ fits 4 (q_rspd r) /\
  plain (q_ref r) /\ length (q_ref r) <= 10 /\ fits 10 (q_refn r) /\ fits 4 (q_refd r) /\
  fits 10 (Z.of_nat (length (q_pts r))) /\ okf (q_min r) /\ okf (q_inc r) /\ okf (q_zval r) /\
  wf_axis (q_abs r) /\ wf_axis (q_ord r) /\ wf_axis (q_den r) /\ wf_axis (q_zax r) /\
  Forall (fun p => okfin (fst p) /\ okf (fst (snd p)) /\ okf (snd (snd p))) (q_pts r).

(* ------------------------------------------------------------------ *)
(** ** Numbers of a point, and lines of points *)

Definition pt := (float * (float * float))%type.
Definition prec_y (r : func58) : nat := if q_dbl r then 11 else 5.
Definition wide_y (r : func58) : nat := if q_dbl r then 20 else 13.
(** [p_vals]: the numbers stored for a point; [p_fmts]: width and precision. *)
Definition p_vals (cplx even : bool) (p : pt) : list float :=
  (if even then [] else [fst p]) ++ [nan_to_num1 (fst (snd p))] ++ (if cplx then [nan_to_num1 (snd (snd p))] else []).
Definition p_fmts (cplx even dbl : bool) : list (nat * nat) :=
  let y := if dbl then (20, 11) else (13, 5) in
  (if even then [] else [(13, 5)]) ++ [y] ++ (if cplx then [y] else []).
Definition fmt_cells (F : list (nat * nat)) (l : list float) : list cell := map (fun wv => CE (fst (fst wv)) (snd (fst wv)) (snd wv)) (combine F l).
Definition p_cells (cplx even dbl : bool) (p : pt) : list cell :=
  fmt_cells (p_fmts cplx even dbl) (p_vals cplx even p).
Definition p_read (cplx even dbl : bool) (p : pt) : list float :=
  map (fun wv => rd (snd (fst wv)) (snd wv)) (combine (p_fmts cplx even dbl) (p_vals cplx even p)).
Definition per_line (cplx even dbl : bool) : nat :=
  match dbl, cplx, even with
  | true, false, true => 4 | true, false, false => 2 | true, true, true => 2 | true, true, false => 1
  | false, false, true => 6 | false, false, false => 3 | false, true, true => 3 | false, true, false => 2
  end.
Definition line58 (cplx even dbl : bool) (ps : list pt) : str := cells_text (flat_map (p_cells cplx even dbl) ps).
Definition data_lines (cplx even dbl : bool) (ps : list pt) : list str := map (line58 cplx even dbl) (chunks (per_line cplx even dbl) ps).

Lemma firstn_flat : forall A B (f : A -> list B) c k l, (forall a, length (f a) = c) -> firstn (c * k) (flat_map f l) = flat_map f (firstn k l).
Proof.
  intros A B f c k l H. revert k. induction l as [|a l IH]; intro k; [rewrite firstn_nil; destruct k; reflexivity|].
  destruct k as [|k]; [rewrite Nat.mul_0_r; reflexivity|]. cbn [flat_map firstn]. rewrite firstn_app, H.
  rewrite firstn_all2 by (rewrite H; lia). f_equal. replace (c * S k - c) with (c * k) by lia. apply IH.
Qed.
Lemma skipn_flat : forall A B (f : A -> list B) c k l, (forall a, length (f a) = c) -> skipn (c * k) (flat_map f l) = flat_map f (skipn k l).
Proof.
  intros A B f c k l H. revert k. induction l as [|a l IH]; intro k; [rewrite skipn_nil; destruct k; reflexivity|].
  destruct k as [|k]; [rewrite Nat.mul_0_r; reflexivity|]. cbn [flat_map skipn]. rewrite skipn_app, H.
  rewrite skipn_all2 by (rewrite H; lia). cbn [app]. replace (c * S k - c) with (c * k) by lia. apply IH.
Qed.
Lemma flat_length : forall A B (f : A -> list B) c l, (forall a, length (f a) = c) -> length (flat_map f l) = c * length l.
Proof. intros A B f c l H. induction l as [|a l IH]; cbn [flat_map length]; [lia|]. rewrite app_length, H, IH. lia. Qed.

(** Fixed formats [F] of a point repeated [k] times in a line. *)
Definition cyc (F : list (nat * nat)) (k : nat) : list (nat * nat) := concat (repeat F k).
Lemma num_line_app : forall G l G' l', length l = length G -> num_line (G ++ G') (l ++ l') = cells_text (fmt_cells G l) ++ num_line G' l'.
Proof.
  induction G as [|[w p] G IH]; intros [|f l] G' l' H; try discriminate; [reflexivity|]. cbn [app num_line]. unfold fmt_cells. cbn [combine map fst snd].
  rewrite IH by (cbn in H; lia). rewrite cells_text_cons, <- app_assoc. reflexivity.
Qed.
Lemma num_line_chunk : forall F (vals : pt -> list float) ps k, (forall p, length (vals p) = length F) -> length ps <= k ->
  num_line (cyc F k) (flat_map vals ps) = cells_text (flat_map (fun p => fmt_cells F (vals p)) ps) ++ [LF].
Proof.
  intros F vals ps k Hv. revert k. unfold cyc. induction ps as [|p ps IH]; intros n H.
  - cbn [flat_map]. destruct (concat (repeat F n)) as [|[w q] l]; reflexivity.
  - destruct n as [|n]; [cbn in H; lia|]. cbn [repeat concat flat_map]. rewrite num_line_app by apply Hv.
    rewrite IH by (cbn in H; lia). rewrite cells_text_app, <- app_assoc. reflexivity.
Qed.
Lemma cyc_length : forall F k, length (cyc F k) = length F * k.
Proof. intros F k. unfold cyc. induction k as [|n IH]; cbn [repeat concat length]; [lia|]. rewrite app_length, IH. lia. Qed.
Lemma num_lines_chunks : forall F (vals : pt -> list float) k n ps, (forall p, length (vals p) = length F) -> k * n <= length ps ->
  num_lines (cyc F k) n (flat_map vals ps) = unlines (map (fun i => cells_text (flat_map (fun p => fmt_cells F (vals p)) (chunk k ps i))) (seq 0 n)).
Proof.
  intros F vals k n ps Hv. revert ps. induction n as [|n IH]; intros ps H; [reflexivity|]. cbn [num_lines seq map]. rewrite cyc_length.
  rewrite (firstn_flat _ _ _ (length F)) by apply Hv. rewrite (skipn_flat _ _ _ (length F)) by apply Hv.
  rewrite num_line_chunk by (try assumption; rewrite firstn_length; lia). rewrite unlines_cons'.
  assert (E0 : chunk k ps 0 = firstn k ps) by (unfold chunk; rewrite Nat.mul_0_r; reflexivity). rewrite E0. f_equal.
  rewrite IH by (rewrite skipn_length; lia). f_equal. rewrite <- seq_shift, map_map. apply map_ext. intro i. unfold chunk.
  rewrite skipn_skipn_add. replace (k + k * i) with (k * S i) by lia. reflexivity.
Qed.
Lemma rows_up_divmod : forall k n, 0 < k -> rows_up k n = n / k + (if 0 <? n mod k then 1 else 0).
Proof.
  intros k n Hk. unfold rows_up. assert (D := Nat.div_mod n k ltac:(lia)). assert (M := Nat.mod_upper_bound n k ltac:(lia)).
  destruct (Nat.ltb_spec 0 (n mod k)).
  - symmetry. apply Nat.div_unique with (r := n mod k - 1); [lia|]. rewrite Nat.mul_add_distr_l. lia.
  - symmetry. rewrite Nat.add_0_r. apply Nat.div_unique with (r := k - 1); lia.
Qed.
Lemma num_block_writes : forall F (vals : pt -> list float) k ps rest t, F <> [] -> 0 < k -> (forall p, length (vals p) = length F) -> writes rest t ->
  writes (num_block (cyc F k) (flat_map vals ps) ++ rest) (unlines (map (fun ch => cells_text (flat_map (fun p => fmt_cells F (vals p)) ch)) (chunks k ps)) ++ t).
Proof.
  intros F vals k ps rest t HF Hk Hv Hr. unfold num_block. rewrite cyc_length. set (c := length F) in *. rewrite (flat_length _ _ _ c) by apply Hv.
  assert (Hc : 0 < c) by (unfold c; destruct F; [congruence|cbn; lia]).
  rewrite Nat.div_mul_cancel_l by lia. rewrite Nat.mul_mod_distr_l by lia.
  assert (D := Nat.div_mod (length ps) k ltac:(lia)). set (n := length ps / k) in *.
  rewrite num_lines_chunks by (assumption || lia).
  unfold chunks. rewrite map_map, rows_up_divmod by assumption. fold n.
  assert (Em : (0 <? c * (length ps mod k)) = (0 <? length ps mod k)).
  { destruct (Nat.ltb_spec 0 (length ps mod k)); [apply Nat.ltb_lt|apply Nat.ltb_ge]; nia. }
  rewrite Em. destruct (Nat.ltb_spec 0 (length ps mod k)) as [L|L].
  - rewrite seq_app, map_app, unlines_app. cbn [app plus seq map]. rewrite <- app_assoc. constructor. rewrite unlines_one.
    replace (c * k * n) with (c * (k * n)) by lia. rewrite (skipn_flat _ _ _ c) by apply Hv. rewrite num_line_chunk.
    + unfold chunk. rewrite (firstn_all2 (n := k) (skipn (k * n) ps)) by (rewrite skipn_length; assert (M := Nat.mod_upper_bound (length ps) k ltac:(lia)); lia).
      constructor. exact Hr.
    + assumption.
    + rewrite skipn_length. assert (M := Nat.mod_upper_bound (length ps) k ltac:(lia)). lia.
  - rewrite Nat.add_0_r. cbn [app]. constructor. exact Hr.
Qed.

Lemma p_vals_length : forall cplx even dbl p, length (p_vals cplx even p) = length (p_fmts cplx even dbl).
Proof. intros [] [] [] p; reflexivity. Qed.
Lemma ascii_writes : forall dbl cplx even ps rest t, writes rest t ->
  writes (ascii58 dbl (negb cplx) even (flat_map (p_vals cplx even) ps) ++ rest) (unlines (data_lines cplx even dbl ps) ++ t).
Proof.
  intros dbl cplx even ps rest t Hr. unfold data_lines, line58. change (p_cells cplx even dbl) with (fun p => fmt_cells (p_fmts cplx even dbl) (p_vals cplx even p)).
  assert (P : forall p, length (p_vals cplx even p) = length (p_fmts cplx even dbl)) by (intro; apply p_vals_length).
  assert (HF : p_fmts cplx even dbl <> []) by (destruct cplx, even, dbl; discriminate).
  assert (Hk : 0 < per_line cplx even dbl) by (destruct cplx, even, dbl; cbn; lia).
  assert (G := num_block_writes (p_fmts cplx even dbl) (p_vals cplx even) (per_line cplx even dbl) ps rest t HF Hk P Hr).
  destruct (cplx && negb even && dbl) eqn:E.
  - destruct cplx, even, dbl; try discriminate. clear G. cbn [ascii58 negb]. set (F := p_fmts true false true).
    change [(13, 5); (20, 11); (20, 11)] with (cyc F 1). cbn [app]. rewrite (flat_length _ _ _ 3) by apply P.
    replace (3 * length ps / 3) with (length ps) by (rewrite Nat.mul_comm, Nat.div_mul; lia).
    rewrite num_lines_chunks by (assumption || lia). unfold chunks, per_line. rewrite map_map.
    replace (rows_up 1 (length ps)) with (length ps) by (unfold rows_up; rewrite Nat.div_1_r; lia). constructor. exact Hr.
  - replace (ascii58 dbl (negb cplx) even (flat_map (p_vals cplx even) ps)) with (num_block (cyc (p_fmts cplx even dbl) (per_line cplx even dbl)) (flat_map (p_vals cplx even) ps)); [exact G|].
    destruct cplx, even, dbl; try discriminate; reflexivity.
Qed.

Definition okpt (p : pt) : Prop := okfin (fst p) /\ okf (fst (snd p)) /\ okf (snd (snd p)).
Lemma ntn_ok : forall f, okf f -> okfin (nan_to_num1 f).
Proof. intros [s|s| |s m e] H; cbn; try (split; [assumption|reflexivity]); try (split; reflexivity). Qed.
Lemma p_vals_ok : forall cplx even p, okpt p -> Forall okfin (p_vals cplx even p).
Proof.
  intros cplx even p (H1 & H2 & H3). unfold p_vals. apply Forall_app. split; [destruct even; repeat constructor; apply H1|].
  constructor; [apply ntn_ok; assumption|]. destruct cplx; repeat constructor; apply ntn_ok; assumption.
Qed.
Lemma fmt_cells_ok : forall F l, Forall (fun wp => wp = (13, 5) \/ wp = (20, 11)) F -> Forall okf l -> Forall (fun c => num_cell c /\ width_ok c /\ last_ok c) (fmt_cells F l).
Proof.
  intros F l HF. revert l. induction HF as [|wp F Hw _ IH]; intros [|f l] Hl; try constructor; inversion Hl; subst; [|apply IH; assumption].
  cbn [fst snd num_cell width_ok last_ok]. destruct Hw as [-> | ->]; cbn [fst snd]; (split; [lia|split; [|lia]]); [apply fmt5_le; assumption|].
  apply Nat.lt_le_incl, fmt11_lt. assumption.
Qed.
Lemma p_fmts_std : forall cplx even dbl, Forall (fun wp => wp = (13, 5) \/ wp = (20, 11)) (p_fmts cplx even dbl).
Proof. intros [] [] []; repeat (constructor; [auto|]); constructor. Qed.
Lemma line58_ok : forall cplx even dbl ps, ps <> [] -> Forall okpt ps -> okline (line58 cplx even dbl ps).
Proof.
  intros cplx even dbl ps Hn H. unfold line58.
  assert (G : Forall (fun c => num_cell c /\ width_ok c /\ last_ok c) (flat_map (p_cells cplx even dbl) ps)).
  { apply Forall_fm. eapply Forall_impl; [|exact H]. intros p Hp. apply fmt_cells_ok; [apply p_fmts_std|apply okfin_okf, p_vals_ok; assumption]. }
  assert (Hne : flat_map (p_cells cplx even dbl) ps <> []) by (destruct ps; [congruence|]; destruct cplx, even, dbl; discriminate).
  destruct (exists_last Hne) as (q & c & E). rewrite E in *. apply okline_nums.
  - eapply Forall_impl; [|exact G]. intros a Ha. apply Ha.
  - eapply Forall_impl; [|exact G]. intros a Ha. apply Ha.
  - rewrite Forall_forall in G. apply G. apply in_or_app. right. left. reflexivity.
Qed.
Lemma per_line_pos : forall cplx even dbl, 0 < per_line cplx even dbl.
Proof. intros [] [] []; cbn; lia. Qed.
Lemma chunks_ok : forall A (P : A -> Prop) k l, 0 < k -> Forall P l -> Forall (fun ch => ch <> [] /\ length ch <= k /\ Forall P ch) (chunks k l).
Proof.
  intros A P k l Hk H. unfold chunks. rewrite Forall_map, Forall_forall. intros i Hi. apply in_seq in Hi.
  split; [apply chunk_last; [assumption|lia]|]. split; [rewrite chunk_length; lia|apply chunk_forall; assumption].
Qed.
Lemma data_lines_ok : forall cplx even dbl ps, Forall okpt ps -> Forall okline (data_lines cplx even dbl ps).
Proof.
  intros cplx even dbl ps H. unfold data_lines. rewrite Forall_map. eapply Forall_impl; [|apply chunks_ok; [apply per_line_pos|exact H]].
  intros ch (H1 & _ & H3). apply line58_ok; assumption.
Qed.

Lemma chop_cells : forall w p l, 1 < w -> Forall (fun f => length (fmt_e false p f) <= w) l ->
  chop w (length (cells_text (map (CE w p) l) ++ [LF]) / w) (cells_text (map (CE w p) l) ++ [LF]) = map (fun f => rjust w (fmt_e false p f)) l.
Proof.
  intros w p l Hw H. assert (Hl : length (cells_text (map (CE w p) l)) = length l * w).
  { rewrite cells_length by (rewrite Forall_map; exact H). rewrite map_map. cbn [cell_width]. clear H.
    unfold list_sum. induction l as [|f l IH]; [reflexivity|]. cbn [map fold_right length]. rewrite IH. lia. }
  rewrite app_length, Hl. cbn [length].
  replace ((length l * w + 1) / w) with (length l) by (apply Nat.div_unique with (r := 1); lia). clear Hl.
  generalize [LF]. intro tl. induction H as [|f l Hf _ IH]; [reflexivity|]. cbn [map length chop]. rewrite cells_text_cons, <- app_assoc.
  assert (Hc : length (cell_text (CE w p f)) = w) by (apply rjust_length; exact Hf).
  rewrite firstn_app_exact, skipn_app_exact by assumption. rewrite IH. reflexivity.
Qed.
Lemma chop_parse : forall w p l, 1 < w -> Forall (fun f => length (fmt_e false p f) <= w) l ->
  parse_floats (chop w (length (cells_text (map (CE w p) l) ++ [LF]) / w) (cells_text (map (CE w p) l) ++ [LF])) = Ok (map (rd p) l).
Proof.
  intros w p l Hw H. rewrite chop_cells by assumption. unfold parse_floats, rmap. rewrite map_map. apply rseq_map_ok. intros f _. apply py_float_rjust.
Qed.

(** All numbers in the same format. *)
Definition uniform (cplx even dbl : bool) : option (nat * nat) :=
  match dbl, even with false, _ => Some (13, 5) | true, true => Some (20, 11) | true, false => None end.
Lemma uniform_cells : forall cplx even dbl w p ps, uniform cplx even dbl = Some (w, p) ->
  flat_map (p_cells cplx even dbl) ps = map (CE w p) (flat_map (p_vals cplx even) ps) /\ flat_map (p_read cplx even dbl) ps = map (rd p) (flat_map (p_vals cplx even) ps).
Proof.
  intros cplx even dbl w p ps H. rewrite !flat_map_concat_map, !concat_map, !map_map.
  split; f_equal; apply map_ext; intro q; destruct cplx, even, dbl; try discriminate; injection H as <- <-; reflexivity.
Qed.
Lemma uniform_line : forall cplx even dbl w p ps, uniform cplx even dbl = Some (w, p) -> Forall okpt ps ->
  let l := line58 cplx even dbl ps ++ [LF] in
  parse_floats (chop w (length l / w) l) = Ok (flat_map (p_read cplx even dbl) ps) /\
  filter (fun c => negb (all_blank13 c)) (chop w (length l / w) l) = chop w (length l / w) l.
Proof.
  intros cplx even dbl w p ps H Ho l. unfold l, line58. destruct (uniform_cells cplx even dbl w p ps H) as [-> ->].
  assert (Hwp : (w, p) = (13, 5) \/ (w, p) = (20, 11)) by (destruct cplx, even, dbl; try discriminate; injection H as <- <-; auto).
  assert (Hf : Forall (fun f => length (fmt_e false p f) <= w) (flat_map (p_vals cplx even) ps)).
  { apply Forall_fm. eapply Forall_impl; [|exact Ho]. intros q Hq. eapply Forall_impl; [|apply (p_vals_ok cplx even q Hq)]. intros f [Hf _].
    destruct Hwp as [E|E]; injection E as -> ->; [apply fmt5_le; assumption|apply Nat.lt_le_incl, fmt11_lt; assumption]. }
  assert (Hw : 1 < w) by (destruct Hwp as [E|E]; injection E as -> ->; lia).
  split; [apply chop_parse; assumption|]. rewrite chop_cells by assumption. clear. induction (flat_map (p_vals cplx even) ps) as [|f l IH]; [reflexivity|].
  cbn [map filter]. replace (all_blank13 (rjust w (fmt_e false p f))) with false; [cbn [negb]; rewrite IH; reflexivity|].
  symmetry. unfold all_blank13. destruct (leqb (rjust w (fmt_e false p f)) (repeat blank 13)) eqn:E; [|reflexivity]. exfalso.
  apply leqb_eq in E. destruct (nonws_last_rjust w (fmt_e false p f) (fmt_e_nonws false p f)) as (a & c & E2 & Hc). rewrite E in E2.
  change (repeat blank 13) with (repeat blank 12 ++ [blank]) in E2. apply app_inj_tail in E2 as [_ E2]. congruence.
Qed.
Lemma cells33_line : forall ps, Forall okpt ps ->
  let l := line58 false false true ps ++ [LF] in parse_floats (cells33 (length l / 33) l) = Ok (flat_map (p_read false false true) ps).
Proof.
  intros ps H l.
  assert (Hc : forall p, okpt p -> exists a b, p_cells false false true p = [CE 13 5 (fst p); CE 20 11 (nan_to_num1 (fst (snd p)))] /\
     a = cell_text (CE 13 5 (fst p)) /\ b = cell_text (CE 20 11 (nan_to_num1 (fst (snd p)))) /\ length a = 13 /\ length b = 20).
  { intros p (Hp & Hy & _). eexists _, _. split; [reflexivity|]. split; [reflexivity|]. split; [reflexivity|].
    split; apply rjust_length; [apply fmt5_le; apply Hp|]. apply Nat.lt_le_incl, fmt11_lt. apply ntn_ok. assumption. }
  assert (Hl : length (line58 false false true ps) = length ps * 33).
  { unfold line58. clear l. induction H as [|p ps Hp _ IH]; [reflexivity|]. cbn [flat_map]. rewrite cells_text_app, app_length, IH.
    destruct (Hc p Hp) as (a & b & -> & -> & -> & L1 & L2). rewrite !cells_text_cons, !app_length, L1, L2. cbn [cells_text map concat length]. lia. }
  unfold l. rewrite app_length, Hl. cbn [length]. replace ((length ps * 33 + 1) / 33) with (length ps) by (apply Nat.div_unique with (r := 1); lia).
  assert (E : cells33 (length ps) (line58 false false true ps ++ [LF]) = flat_map (fun p => [cell_text (CE 13 5 (fst p)); cell_text (CE 20 11 (nan_to_num1 (fst (snd p))))]) ps).
  { generalize [LF]. intro tl. clear l Hl. unfold line58. induction H as [|p ps Hp _ IH]; [reflexivity|].
    cbn [flat_map length cells33]. rewrite cells_text_app. destruct (Hc p Hp) as (a & b & -> & Ea & Eb & L1 & L2).
    rewrite !cells_text_cons. rewrite <- Ea, <- Eb. change (cells_text []) with (@nil N). rewrite app_nil_r, <- !app_assoc.
    rewrite firstn_app_exact by assumption. unfold slice. rewrite skipn_app_exact by assumption. rewrite firstn_app_exact by assumption.
    replace (skipn 33 (a ++ b ++ cells_text (flat_map (p_cells false false true) ps) ++ tl)) with (cells_text (flat_map (p_cells false false true) ps) ++ tl)
      by (rewrite (app_assoc a b); rewrite skipn_app_exact by (rewrite app_length; lia); reflexivity).
    rewrite IH. reflexivity. }
  rewrite E. unfold parse_floats, rmap. clear. cbn [cell_text]. induction ps as [|p ps IH]; [reflexivity|]. cbn [flat_map app map rseq].
  rewrite !py_float_rjust. cbn [rbind]. rewrite IH. reflexivity.
Qed.
Lemma slices53_line : forall p, okpt p -> let l := line58 true false true [p] ++ [LF] in
  parse_floats [slice 0 13 l; slice 13 33 l; slice 33 53 l] = Ok (p_read true false true p).
Proof.
  intros p (Hp & Hy & Hz) l. unfold l, line58. cbn [flat_map]. rewrite app_nil_r.
  set (a := cell_text (CE 13 5 (fst p))). set (b := cell_text (CE 20 11 (nan_to_num1 (fst (snd p))))). set (c := cell_text (CE 20 11 (nan_to_num1 (snd (snd p))))).
  assert (L1 : length a = 13) by (apply rjust_length, fmt5_le, Hp).
  assert (L2 : length b = 20) by (apply rjust_length, Nat.lt_le_incl, fmt11_lt, ntn_ok; assumption).
  assert (L3 : length c = 20) by (apply rjust_length, Nat.lt_le_incl, fmt11_lt, ntn_ok; assumption).
  change (cells_text (p_cells true false true p)) with (a ++ b ++ c ++ []). rewrite <- !app_assoc. cbn [app].
  unfold slice. rewrite skipn_O.
  change (13 - 0) with 13. change (33 - 13) with 20. change (53 - 33) with 20.
  rewrite firstn_app_exact by assumption. rewrite skipn_app_exact by assumption. rewrite firstn_app_exact by assumption.
  rewrite (app_assoc a b). rewrite skipn_app_exact by (rewrite app_length; lia). rewrite firstn_app_exact by assumption.
  unfold parse_floats, rmap, a, b, c. cbn [map rseq cell_text]. rewrite !py_float_rjust. reflexivity.
Qed.

Definition even_val (even : bool) : pyval := VInt (if even then 1 else 0).
Definition odt_of (cplx dbl : bool) : Z := match cplx, dbl with false, false => 2 | false, true => 4 | true, false => 5 | true, true => 6 end%Z.
Lemma rmap_lines : forall A (f : str -> result (list A)) (g : list pt -> str) (h : pt -> list A) chs,
  (forall ch, In ch chs -> f (g ch ++ [LF]) = Ok (flat_map h ch)) -> 
  rmap f (map (fun l => l ++ [LF]) (map g chs)) = Ok (map (flat_map h) chs).
Proof.
  intros A f g h chs H. unfold rmap. rewrite !map_map. apply rseq_map_ok. intros ch Hc. apply H. exact Hc.
Qed.
Lemma concat_flat : forall A B (h : A -> list B) chs, concat (map (flat_map h) chs) = flat_map h (concat chs).
Proof. intros A B h chs. induction chs as [|c chs IH]; [reflexivity|]. cbn [map concat]. rewrite IH, flat_map_app. reflexivity. Qed.

Lemma firstn_last : forall A (L : list A) x, firstn (length (L ++ [x]) - 1) (L ++ [x]) = L.
Proof. intros A L x. apply firstn_app_exact. rewrite app_length. cbn [length]. lia. Qed.
Lemma py_nth_last : forall A (L : list A) x, py_nth (L ++ [x]) (-1) = Ok x.
Proof.
  intros A L x. unfold py_nth. rewrite app_length. cbn [length]. change (-1 <? 0)%Z with true. cbv zeta iota.
  match goal with |- context [if ?b then _ else _] => replace b with false by (symmetry; apply Bool.orb_false_iff; split; [apply Z.ltb_ge|apply Z.leb_gt]; lia) end.
  match goal with |- context [nth_error _ ?n] => replace n with (length L) by lia end.
  rewrite nth_error_app2, Nat.sub_diag by lia. reflexivity.
Qed.
Lemma ascii_read : forall cplx even dbl d ps,
  ix d "ord_data_type" = Ok (VInt (odt_of cplx dbl)) -> ix d "abscissa_spacing" = Ok (even_val even) -> ps <> [] -> Forall okpt ps ->
  ascii_values d (map (fun l => l ++ [LF]) (data_lines cplx even dbl ps)) = Ok (flat_map (p_read cplx even dbl) ps).
Proof.
  intros cplx even dbl d ps Ho He Hn H. unfold ascii_values. rewrite Ho, He. cbn [rbind]. unfold data_lines.
  assert (Hc := chunks_ok _ okpt (per_line cplx even dbl) ps (per_line_pos _ _ _) H). rewrite Forall_forall in Hc.
  assert (Ec := chunks_concat _ (per_line cplx even dbl) ps (per_line_pos _ _ _)).
  remember (chunks (per_line cplx even dbl) ps) as chs eqn:Echs. clear Echs.
  destruct dbl.
  - replace (eq_one_of (VInt (odt_of cplx true)) [2; 5]%Z) with false by (destruct cplx; reflexivity).
    replace (eq_one_of (VInt (odt_of cplx true)) [4; 6]%Z) with true by (destruct cplx; reflexivity). cbn [andb].
    destruct even.
    + replace (py_eqZ (even_val true) 1) with true by reflexivity.
      rewrite (rmap_lines _ _ _ (p_read cplx true true)).
      * cbn [rbind]. rewrite concat_flat, Ec. reflexivity.
      * intros ch Hi. apply (uniform_line cplx true true 20 11); [reflexivity|apply Hc; assumption].
    + replace (py_eqZ (even_val false) 1) with false by reflexivity. replace (py_eqZ (even_val false) 0) with true by reflexivity. destruct cplx.
      * cbn [odt_of]. change (py_eqZ (VInt 6) 4) with false. change (py_eqZ (VInt 6) 6) with true. cbn [andb].
        rewrite (rmap_lines _ _ _ (p_read true false true)).
        -- cbn [rbind]. rewrite concat_flat, Ec. reflexivity.
        -- intros ch Hi. apply Hc in Hi as (H1 & H2 & H3). cbn [per_line] in H2. destruct ch as [|p [|q ch]]; [congruence| |cbn in H2; lia].
           inversion H3; subst. cbn [flat_map]. rewrite app_nil_r. apply slices53_line. assumption.
      * cbn [odt_of]. change (py_eqZ (VInt 4) 4) with true. cbn [andb].
        rewrite (rmap_lines _ _ _ (p_read false false true)).
        -- cbn [rbind]. rewrite concat_flat, Ec. reflexivity.
        -- intros ch Hi. apply cells33_line. apply Hc. assumption.
  - replace (eq_one_of (VInt (odt_of cplx false)) [2; 5]%Z) with true by (destruct cplx; reflexivity).
    assert (Hne : chs <> []) by (intro E; rewrite E in Ec; cbn in Ec; congruence).
    destruct (exists_last Hne) as (q & l & E). rewrite E in *. rewrite !map_app. cbn [map].
    rewrite (firstn_last str). rewrite (py_nth_last str).
    rewrite (rmap_lines _ _ _ (p_read cplx even false)).
    2: { intros ch Hi. apply (uniform_line cplx even false 13 5); [reflexivity|]. apply Hc. apply in_or_app. left. assumption. }
    cbn [rbind].
    destruct (uniform_line cplx even false 13 5 l) as [U1 U2]; [destruct even; reflexivity|apply Hc; apply in_or_app; right; left; reflexivity|].
    rewrite U2, U1. cbn [rbind]. rewrite concat_flat. rewrite <- Ec, concat_app, flat_map_app. cbn [concat]. rewrite app_nil_r. reflexivity.
Qed.

(* ------------------------------------------------------------------ *)
(** ** Abscissas and ordinates from the sequence of numbers *)

Definition raw (cplx even : bool) (p : pt) : list float :=
  (if even then [] else [fst p]) ++ [fst (snd p)] ++ (if cplx then [snd (snd p)] else []).
(** A point as read back from text and from binary. *)
Definition rpt (dbl : bool) (p : pt) : pt :=
  let ry := rd (if dbl then 11 else 5) in (rd 5 (fst p), (ry (nan_to_num1 (fst (snd p))), ry (nan_to_num1 (snd (snd p))))).
Definition npt (p : pt) : pt := (fst p, (nan_to_num1 (fst (snd p)), nan_to_num1 (snd (snd p)))).
Lemma p_read_raw : forall cplx even dbl ps, flat_map (p_read cplx even dbl) ps = flat_map (raw cplx even) (map (rpt dbl) ps).
Proof. intros cplx even dbl ps. rewrite !flat_map_concat_map, map_map. f_equal. apply map_ext. intro p. destruct cplx, even, dbl; reflexivity. Qed.
Lemma p_vals_raw : forall cplx even ps, flat_map (p_vals cplx even) ps = flat_map (raw cplx even) (map npt ps).
Proof. intros cplx even ps. rewrite !flat_map_concat_map, map_map. reflexivity. Qed.

Lemma every_2 : forall (g h : pt -> float) ps, every_upto 0 1 2 (flat_map (fun p => [g p; h p]) ps) = map g ps /\ every 1 2 (flat_map (fun p => [g p; h p]) ps) = map h ps.
Proof.
  intros g h ps. split.
  - induction ps as [|p ps IH]; [reflexivity|]. destruct ps as [|q ps]; [reflexivity|]. unfold every_upto in *. remember (q :: ps) as l.
    cbn [flat_map app length]. assert (L : 1 <= length (flat_map (fun p => [g p; h p]) l)) by (subst l; cbn; lia).
    replace (S (S (length (flat_map (fun p => [g p; h p]) l))) - 1) with (S (S (length (flat_map (fun p => [g p; h p]) l) - 1))) by lia.
    cbn [firstn map]. rewrite <- IH. reflexivity.
  - induction ps as [|p ps IH]; [reflexivity|]. cbn [map]. rewrite <- IH. reflexivity.
Qed.
Lemma every_3 : forall (g h i : pt -> float) ps, every_upto 0 2 3 (flat_map (fun p => [g p; h p; i p]) ps) = map g ps /\
  every_upto 1 1 3 (flat_map (fun p => [g p; h p; i p]) ps) = map h ps /\ every 2 3 (flat_map (fun p => [g p; h p; i p]) ps) = map i ps.
Proof.
  intros g h i ps. split; [|split].
  - induction ps as [|p ps IH]; [reflexivity|]. destruct ps as [|q ps]; [reflexivity|]. unfold every_upto in *. remember (q :: ps) as l.
    cbn [flat_map app length]. set (L := flat_map (fun p => [g p; h p; i p]) l) in *. assert (HL : 3 <= length L) by (unfold L; subst l; cbn; lia).
    replace (S (S (S (length L))) - 2) with (S (S (S (length L - 2)))) by lia. cbn [firstn map]. rewrite <- IH. reflexivity.
  - induction ps as [|p ps IH]; [reflexivity|]. destruct ps as [|q ps]; [reflexivity|]. unfold every_upto in *. remember (q :: ps) as l.
    cbn [flat_map app length]. set (L := flat_map (fun p => [g p; h p; i p]) l) in *. assert (HL : 3 <= length L) by (unfold L; subst l; cbn; lia).
    replace (S (S (S (length L))) - 1) with (S (S (S (length L - 1)))) by lia. cbn [firstn map]. rewrite <- IH. reflexivity.
  - induction ps as [|p ps IH]; [reflexivity|]. cbn [map]. rewrite <- IH. reflexivity.
Qed.
Definition x_out (even : bool) (mn inc : float) (ps : list pt) : pyval := if even then arange_x (length ps) mn inc else vfloats (map fst ps).
Definition y_out (cplx : bool) (ps : list pt) : pyval :=
  if cplx then VArr DCplx (map (fun p => VCplx (re_part (fst (snd p)) (snd (snd p))) (im_part (snd (snd p)))) ps) else vfloats (map (fun p => fst (snd p)) ps).
Lemma cjoin_out : forall ps, Forall (fun p : pt => f_finite (fst (snd p)) = true /\ okfin (snd (snd p))) ps ->
  np_cjoin (map (fun p => fst (snd p)) ps) (map (fun p => snd (snd p)) ps) = Ok (y_out true ps).
Proof.
  intros ps H. unfold np_cjoin, bcast2, y_out. rewrite !map_length, Nat.eqb_refl. cbn [rbind]. f_equal. f_equal.
  induction H as [|p ps (H1 & H2 & H3) _ IH]; [reflexivity|]. cbn [map combine fst snd]. f_equal; [|exact IH]. apply vcjoin_parts; assumption.
Qed.
Lemma assemble_ok : forall cplx even dbl d mn inc ps,
  ix d "ord_data_type" = Ok (VInt (odt_of cplx dbl)) -> ix d "abscissa_spacing" = Ok (even_val even) ->
  ix d "abscissa_min" = Ok (VFloat mn) -> ix d "abscissa_inc" = Ok (VFloat inc) ->
  Forall (fun p : pt => f_finite (fst (snd p)) = true /\ okfin (snd (snd p))) ps ->
  assemble58 d (flat_map (raw cplx even) ps) = Ok (dupdate d [(KS "x", x_out even mn inc ps); (KS "data", y_out cplx ps)]).
Proof.
  intros cplx even dbl d mn inc ps Ho He Hm Hi Hf. unfold assemble58, get_float. rewrite Ho, He, Hm, Hi. cbn [rbind].
  destruct cplx.
  - replace (eq_one_of (VInt (odt_of true dbl)) [2; 4]%Z) with false by (destruct dbl; reflexivity).
    replace (eq_one_of (VInt (odt_of true dbl)) [5; 6]%Z) with true by (destruct dbl; reflexivity).
    destruct even; cbn [even_val py_eqZ Z.eqb].
    + destruct (every_2 (fun p => fst (snd p)) (fun p => snd (snd p)) ps) as [E1 E2].
      change (raw true true) with (fun p : pt => [fst (snd p); snd (snd p)]). rewrite E1, E2, cjoin_out by assumption. cbn [rbind].
      rewrite (flat_length _ _ _ 2) by reflexivity. replace ((2 * length ps + 1) / 2) with (length ps) by (apply Nat.div_unique with (r := 1); lia). reflexivity.
    + destruct (every_3 fst (fun p => fst (snd p)) (fun p => snd (snd p)) ps) as (E0 & E1 & E2).
      change (raw true false) with (fun p : pt => [fst p; fst (snd p); snd (snd p)]). rewrite E0, E1, E2, cjoin_out by assumption. reflexivity.
  - replace (eq_one_of (VInt (odt_of false dbl)) [2; 4]%Z) with true by (destruct dbl; reflexivity).
    destruct even; cbn [even_val py_eqZ Z.eqb].
    + assert (E : flat_map (raw false true) ps = map (fun p => fst (snd p)) ps) by (clear; induction ps as [|p ps IH]; [reflexivity|]; cbn [map flat_map]; rewrite IH; reflexivity).
      rewrite E, map_length. reflexivity.
    + destruct (every_2 fst (fun p => fst (snd p)) ps) as [E1 E2]. change (raw false false) with (fun p : pt => [fst p; fst (snd p)]). rewrite E1, E2. reflexivity.
Qed.

(* ------------------------------------------------------------------ *)
(** ** The sequence of numbers to write *)

Lemma round64_num : forall s n d, round64 s n d <> S754_nan.
Proof.
  intros s n d. unfold round64. destruct (n =? 0)%Z; [discriminate|]. destruct (scale _ _ _ _) as [a b].
  match goal with |- (let (_, _) := ?x in _) <> _ => destruct x as [q e] end. destruct (971 <? e)%Z; [discriminate|]. destruct q; discriminate.
Qed.
Lemma int_ntn : forall z f, py_float_of_int z = Ok f -> nan_to_num1 f = f.
Proof.
  intros z f H. unfold py_float_of_int, float_of_Z in H. assert (N := round64_num (z <? 0)%Z (Z.abs z) 1).
  destruct (round64 _ _ _); try discriminate; [| |]; try (injection H as <-; reflexivity). congruence.
Qed.
Lemma ntn_flt : forall v f, as_flt v f -> as_flt (nan_to_num_elt v) (nan_to_num1 f).
Proof.
  intros v f H. unfold as_flt in *. destruct v; cbn [fmt_float_arg nan_to_num_elt] in *; try discriminate.
  - rewrite H. f_equal. symmetry. eapply int_ntn. eassumption.
  - rewrite H. f_equal. symmetry. eapply int_ntn. eassumption.
  - injection H as <-. reflexivity.
Qed.
Lemma ntn_cplx : forall v p, as_cplx v p -> as_cplx (nan_to_num_elt v) (nan_to_num1 (fst p), nan_to_num1 (snd p)).
Proof.
  intros v p [H1 H2]. unfold as_cplx, gf in *. cbn [rbind real_of imag_of fst snd] in *.
  destruct v; cbn [nan_to_num_elt rbind fmt_float_arg] in *; try discriminate.
  - split; [rewrite H1|rewrite H2]; f_equal; symmetry; eapply int_ntn; eassumption.
  - split; [rewrite H1|rewrite H2]; f_equal; symmetry; eapply int_ntn; eassumption.
  - injection H1 as <-. injection H2 as <-. split; reflexivity.
  - injection H1 as <-. injection H2 as <-. split; reflexivity.
Qed.
Lemma floats_flt : forall vs l, Forall2 as_flt vs l -> floats_of vs = Ok l.
Proof. intros vs l H. unfold floats_of, rmap. induction H as [|v f vs l Hv _ IH]; [reflexivity|]. cbn [map rseq]. rewrite Hv. cbn [rbind]. rewrite IH. reflexivity. Qed.
Lemma parts_cplx : forall dt vs l, Forall2 as_cplx vs l ->
  exists re im, arr_parts real_of (VArr dt vs) = Ok (VArr DFloat re) /\ floats_of re = Ok (map fst l) /\
    arr_parts imag_of (VArr dt vs) = Ok (VArr DFloat im) /\ floats_of im = Ok (map snd l).
Proof.
  intros dt vs l H. unfold arr_parts, floats_of, rmap. induction H as [|v p vs l [H1 H2] _ (re & im & E1 & E2 & E3 & E4)].
  - exists [], []. auto.
  - unfold gf in *. destruct (real_of (Ok v)) as [a|] eqn:Ea; [|discriminate]. destruct (imag_of (Ok v)) as [b|] eqn:Eb; [|discriminate].
    exists (a :: re), (b :: im). cbn [map rseq]. rewrite Ea, Eb. cbn [rbind] in *.
    destruct (rseq (map (fun e => real_of (Ok e)) vs)); [|discriminate]. destruct (rseq (map (fun e => imag_of (Ok e)) vs)); [|discriminate].
    cbn [rbind] in *. injection E1 as ->. injection E3 as ->. rewrite H1, H2. cbn [rbind]. rewrite E2, E4. auto.
Qed.
Lemma assign_arr : forall dt vs l, floats_of vs = Ok l -> assign_slice (length l) (VArr dt vs) = Ok l.
Proof. intros dt vs l H. unfold assign_slice. cbn [to_seq rbind]. rewrite H. cbn [rbind]. rewrite Nat.eqb_refl. reflexivity. Qed.
Lemma interleave2_map : forall A (f g : A -> float) l, interleave2 (map f l) (map g l) = flat_map (fun p => [f p; g p]) l.
Proof. intros A f g l. induction l as [|a l IH]; [reflexivity|]. cbn. rewrite IH. reflexivity. Qed.
Lemma interleave3_map : forall A (f g h : A -> float) l, interleave3 (map f l) (map g l) (map h l) = flat_map (fun p => [f p; g p; h p]) l.
Proof. intros A f g h l. induction l as [|a l IH]; [reflexivity|]. cbn. rewrite IH. reflexivity. Qed.

Lemma abscissa_assign : forall v even xs mn inc, abscissa v even xs mn inc -> assign_slice (length xs) v = Ok xs.
Proof.
  intros v even xs mn inc H. unfold assign_slice.
  assert (G : exists vs, to_seq v = Ok vs /\ floats_of vs = Ok xs /\ match v with VStr _ => False | _ => True end).
  { destruct H as [(x0 & x1 & rest & Hs & Hx & _)|(z0 & z1 & rest & Hs & Hx & Hb & _)].
    - exists (map VFloat xs). split; [assumption|]. split.
      + apply floats_flt. clear. induction xs; constructor; [reflexivity|assumption].
      + destruct v; try exact Logic.I. subst xs. destruct s; discriminate.
    - exists (map VInt (z0 :: z1 :: rest)). split; [assumption|]. split.
      + subst xs. apply floats_flt. clear - Hb. induction Hb; constructor; [|assumption]. apply py_float_of_int_ok. lia.
      + destruct v; try exact Logic.I. destruct s; discriminate. }
  destruct G as (vs & E1 & E2 & E3). rewrite E1. cbn [rbind]. destruct v; try contradiction; rewrite E2; cbn [rbind]; rewrite Nat.eqb_refl; reflexivity.
Qed.

Lemma payload_ok : forall d (cplx even : bool) dt vs (pts : list pt) vx mn inc,
  ix d "data" = Ok (VArr dt vs) -> ix d "x" = Ok vx -> abscissa vx even (map fst pts) mn inc ->
  (if cplx then Forall2 as_cplx vs (map (fun p => snd (npt p)) pts) else Forall2 as_flt vs (map (fun p => fst (snd (npt p))) pts)) ->
  payload58 d (length pts) (negb cplx) even = Ok (flat_map (p_vals cplx even) pts).
Proof.
  intros d cplx even dt vs pts vx mn inc Hd Hx Ha Hv. unfold payload58. rewrite Hd. cbn [rbind].
  assert (Ax := abscissa_assign _ _ _ _ _ Ha). rewrite map_length in Ax. change (assign_slice (length pts) vx = Ok (map fst pts)) in Ax.
  destruct cplx; cbn [negb].
  - destruct (parts_cplx dt vs _ Hv) as (re & im & E1 & E2 & E3 & E4). rewrite map_map in E2, E4.
    assert (B1 := assign_arr DFloat re _ E2). assert (B2 := assign_arr DFloat im _ E4). rewrite map_length in B1, B2.
    destruct even.
    + rewrite E1. cbn [rbind]. rewrite B1. cbn [rbind]. rewrite E3. cbn [rbind]. rewrite B2. cbn [rbind]. rewrite interleave2_map. reflexivity.
    + rewrite Hx. cbn [rbind]. rewrite Ax. cbn [rbind]. rewrite E1. cbn [rbind]. rewrite B1. cbn [rbind]. rewrite E3. cbn [rbind]. rewrite B2. cbn [rbind].
      rewrite interleave3_map. reflexivity.
  - apply floats_flt in Hv. destruct even.
    + rewrite Hv. reflexivity.
    + rewrite Hx. cbn [rbind]. rewrite Ax. cbn [rbind]. assert (B := assign_arr dt vs _ Hv). rewrite map_length in B. rewrite B. cbn [rbind].
      rewrite interleave2_map. reflexivity.
Qed.

Definition is_set58 (k : key) : bool := existsb (key_eqb k) [KS "ord_data_type"; KS "n_bytes"; KS "abscissa_min"; KS "data"].
Lemma first_two : forall v even xs mn inc, abscissa v even xs mn inc -> Forall okfin xs -> okf inc ->
  exists v0 v1 dx, at_ (Ok v) 0 = Ok v0 /\ at_ (Ok v) 1 = Ok v1 /\ num_sub v1 v0 = Ok dx /\ gf (bool_mul even v0) mn /\ gf (bool_mul even dx) inc.
Proof.
  intros v even xs mn inc H Hx Hi. destruct H as [(x0 & x1 & rest & Hs & -> & Hf & -> & ->)|(z0 & z1 & rest & Hs & -> & Hb & -> & ->)].
  - exists (VFloat x0), (VFloat x1), (VFloat (f_sub x1 x0)). unfold at_. cbn [rbind]. rewrite Hs. cbn [rbind map].
    inversion Hx as [|? ? [V0 F0] _]; subst.
    split; [apply (py_nth_ok _ _ 0); reflexivity|]. split; [apply (py_nth_ok _ _ 1); reflexivity|]. split; [reflexivity|].
    unfold gf, bool_mul. cbn [Ds58.as_num rbind fmt_float_arg]. destruct even; cbn [times] in *.
    + rewrite !f_mul_one by assumption. split; reflexivity.
    + split; f_equal; [destruct x0; try discriminate; destruct s; reflexivity|]. destruct (f_sub x1 x0); try discriminate; destruct s; reflexivity.
  - exists (VInt z0), (VInt z1), (VInt (z1 - z0)). unfold at_. cbn [rbind]. rewrite Hs. cbn [rbind map].
    inversion Hb as [|? ? B0 Hb1]; subst. inversion Hb1 as [|? ? B1 _]; subst.
    split; [apply (py_nth_ok _ _ 0); reflexivity|]. split; [apply (py_nth_ok _ _ 1); reflexivity|]. split; [reflexivity|].
    unfold gf, bool_mul. cbn [Ds58.as_num rbind fmt_float_arg]. destruct even; [|split; reflexivity].
    split; apply py_float_of_int_ok; lia.
Qed.
Lemma eq_one_num : forall v z l, is_num v z -> eq_one_of v l = existsb (fun k => (z =? k)%Z) l.
Proof. intros v z l [_ H]. unfold eq_one_of. induction l as [|k l IH]; [reflexivity|]. cbn [existsb]. rewrite H, IH. reflexivity. Qed.
Lemma ordinates_ntn : forall (cplx : bool) v l, ordinates cplx v l -> exists dt vs, np_nan_to_num v = Ok (VArr dt vs) /\ (dt = DCplx <-> cplx = true) /\ length vs = length l /\
  if cplx then Forall2 as_cplx vs (map (fun p => (nan_to_num1 (fst p), nan_to_num1 (snd p))) l) else Forall2 as_flt vs (map (fun p => nan_to_num1 (fst p)) l).
Proof.
  intros cplx v l (Hk & dt & vs & Ha & Hd & Hv). exists dt, (map nan_to_num_elt vs).
  split; [destruct v; try contradiction; unfold np_nan_to_num; rewrite Ha; reflexivity|]. split; [assumption|].
  split; [rewrite map_length; destruct cplx; apply Forall2_len in Hv; [|rewrite map_length in Hv]; assumption|].
  destruct cplx.
  - clear - Hv. induction Hv; constructor; [apply ntn_cplx; assumption|assumption].
  - clear - Hv. revert l Hv. induction vs as [|w vs IH]; intros [|p l] Hv; inversion Hv; subst; constructor; [apply ntn_flt; assumption|apply IH; assumption].
Qed.

Lemma prep58_ok : forall fd bin d r, repr58 fd bin d r -> wf58 r ->
  exists v v' p, dget d (KS "data") = Some v /\ np_nan_to_num v = Ok v' /\ prepare58_write (opt_fields (dput d (KS "data") v') defaults58) fd = Ok p /\
    p_n p = length (q_pts r) /\ p_r p = negb (q_cplx r) /\ p_dbl p = Ok (q_dbl r) /\
    p_nb p = Ok (Z.of_nat (length (q_pts r)) * (if q_dbl r then 8 else 4))%Z /\ p_even p = q_even r /\
    (forall k, is_set58 k = false -> dget (p_d p) k = match dget d k with Some v => Some v | None => dget defaults58 k end) /\
    gi (ix (p_d p) "ord_data_type") (odt58 r) /\
    gf (do v <- ix (p_d p) "abscissa_min" ;; bool_mul (q_even r) v) (q_min r) /\ gf (bool_mul (q_even r) (p_dx p)) (q_inc r) /\
    payload58 (p_d p) (length (q_pts r)) (negb (q_cplx r)) (q_even r) = Ok (flat_map (p_vals (q_cplx r) (q_even r)) (q_pts r)).
Proof.
  intros fd bin d r R W.
  destruct R as (Rty & Rid & Rft & Rfi & Rver & Rlc & Rrsp & Rrn & Rrd & Rref & Rfn & Rfd & Rodt & Rsp & Rz & Rbin & _ & _ & _ & _ & _ & _ & _ & _ & (vx & Hx & Ax) & (v & Hv & Ov)).
  destruct W as (_ & _ & _ & _ & _ & _ & _ & _ & _ & _ & _ & _ & _ & Wn & Wmin & Winc & _ & _ & _ & _ & _ & Wp).
  destruct (ordinates_ntn _ _ _ Ov) as (dt & vs & En & Hdt & Hlen & Hvs). rewrite map_length in Hlen.
  exists v, (VArr dt vs). 
  set (d0 := opt_fields (dput d (KS "data") (VArr dt vs)) defaults58).
  assert (G0 : forall k, dget d0 k = if key_eqb k (KS "data") then Some (VArr dt vs) else match dget d k with Some v => Some v | None => dget defaults58 k end).
  { intro k. unfold d0. rewrite opt_fields_get, dget_dput. destruct (key_eqb k (KS "data")); reflexivity. }
  assert (Hfx : Forall okfin (map fst (q_pts r))) by (rewrite Forall_map; eapply Forall_impl; [|exact Wp]; intros a Ha; apply Ha).
  destruct (first_two _ _ _ _ _ Ax Hfx Winc) as (v0 & v1 & dx & E0 & E1 & Es & M0 & M1).
  unfold prepare58_write. unfold ix at 1. rewrite (G0 (KS "data")).
  change (key_eqb (KS "data") (KS "data")) with true. cbn [of_option rbind].
  change (py_len (VArr dt vs)) with (@Ok nat (length vs)). cbn [rbind].
  assert (Ec : np_iscomplex (VArr dt vs) = Ok (q_cplx r)).
  { cbn [np_iscomplex np_asarray rbind fst]. destruct dt; try (destruct (q_cplx r); [destruct Hdt as [_ Hdt]; discriminate (Hdt eq_refl)|reflexivity]). destruct Hdt as [Hdt _]. rewrite Hdt; reflexivity. }
  rewrite Ec. cbn [rbind]. set (d1 := if fd then _ else d0).
  assert (Hodt : exists vo, dget d1 (KS "ord_data_type") = Some vo /\ is_num vo (odt58 r)).
  { unfold d1. destruct fd.
    - exists (VInt (if q_cplx r then 6 else 4)). rewrite dget_dput. split; [reflexivity|]. unfold odt58. rewrite Rodt. split; [destruct (q_cplx r); reflexivity|]. intro k. destruct (q_cplx r); reflexivity.
    - destruct Rodt as (vo & Ho & Hn). exists vo. rewrite G0. change (key_eqb (KS "ord_data_type") (KS "data")) with false. cbn iota. rewrite Ho. auto. }
  assert (G1 : forall k, is_set58 k = false \/ k = KS "data" \/ k = KS "n_bytes" -> dget d1 k = dget d0 k).
  { intros k Hk. unfold d1. destruct fd; [|reflexivity]. rewrite dget_dput. destruct (key_eqb_spec k (KS "ord_data_type")) as [->|]; [|reflexivity].
    destruct Hk as [Hk|[Hk|Hk]]; discriminate. }
  destruct Hodt as (vo & Ho & Hn). unfold ix at 1. rewrite Ho. cbn [of_option rbind].
  rewrite !(eq_one_num _ _ _ Hn).
  assert (Ed : (if existsb (fun k => (odt58 r =? k)%Z) [4; 6]%Z then Ok true else if existsb (fun k => (odt58 r =? k)%Z) [2; 5]%Z then Ok false else Err UnboundLocalError) = Ok (q_dbl r)).
  { unfold odt58. destruct (q_cplx r), (q_dbl r); reflexivity. }
  rewrite Ed. cbn [rbind]. rewrite Hlen.
  set (d2r := if dmem d1 (KS "n_bytes") then _ else _).
  assert (E2 : exists d2, d2r = Ok d2 /\ forall k, k <> KS "n_bytes" -> dget d2 k = dget d1 k).
  { unfold d2r. destruct (dmem d1 (KS "n_bytes")); eexists; split; try reflexivity. intros k Hk. rewrite dget_dput. destruct (key_eqb_spec k (KS "n_bytes")); [congruence|reflexivity]. }
  destruct E2 as (d2 & -> & G2). cbn [rbind].
  assert (Hsp : exists sp, dget d2 (KS "abscissa_spacing") = Some sp /\ truthy sp = Ok (q_even r)).
  { rewrite G2 by discriminate. rewrite G1 by (left; reflexivity). rewrite G0. change (key_eqb (KS "abscissa_spacing") (KS "data")) with false. cbn iota.
    destruct Rsp as [(sp & Hs & Ht)|[Hs Ht]]; rewrite Hs; [exists sp; auto|]. exists (VInt 0). split; [reflexivity|]. rewrite Ht. reflexivity. }
  destruct Hsp as (sp & Hs & Ht). unfold ix at 1. rewrite Hs. cbn [of_option rbind]. rewrite Ht. cbn [rbind].
  assert (Hx2 : ix d2 "x" = Ok vx).
  { unfold ix. rewrite G2 by discriminate. rewrite G1 by (left; reflexivity). rewrite G0. change (key_eqb (KS "x") (KS "data")) with false. cbn iota. rewrite Hx. reflexivity. }
  rewrite Hx2, E0. cbn [rbind].
  set (d3 := dput d2 (KS "abscissa_min") v0).
  assert (Hx3 : ix d3 "x" = Ok vx).
  { unfold ix, d3. rewrite dget_dput. change (key_eqb (KS "x") (KS "abscissa_min")) with false. exact Hx2. }
  rewrite Hx3, E1. cbn [rbind]. rewrite Es. cbn [rbind].
  eexists. split; [assumption|]. split; [assumption|]. split; [reflexivity|]. cbn [p_n p_r p_dbl p_nb p_even p_d p_dx].
  split; [reflexivity|]. split; [reflexivity|]. split; [reflexivity|]. split; [reflexivity|]. split; [reflexivity|].
  split.
  { intros k Hk. unfold d3. rewrite dget_dput. destruct (key_eqb_spec k (KS "abscissa_min")) as [->|]; [discriminate|].
    rewrite G2 by (intros ->; discriminate). rewrite G1 by (left; assumption). rewrite G0. destruct (key_eqb_spec k (KS "data")) as [->|]; [discriminate|reflexivity]. }
  split. { unfold ix, d3. rewrite dget_dput. change (key_eqb (KS "ord_data_type") (KS "abscissa_min")) with false. cbn iota. rewrite G2 by discriminate. rewrite Ho. exact (proj1 Hn). }
  split. { unfold ix, d3. rewrite dget_dput. change (key_eqb (KS "abscissa_min") (KS "abscissa_min")) with true. exact M0. }
  split; [exact M1|]. eapply payload_ok; [|exact Hx3|exact Ax|].
  - unfold ix, d3. rewrite dget_dput. change (key_eqb (KS "data") (KS "abscissa_min")) with false. cbn iota. rewrite G2 by discriminate. rewrite G1 by auto. rewrite G0. reflexivity.
  - rewrite !map_map in Hvs. destruct (q_cplx r); exact Hvs.
Qed.
