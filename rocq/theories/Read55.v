(** Reading documented blocks of the type 55. *)
From Coq Require Import String List NArith ZArith Bool Lia.
Import ListNotations.
From Verif Require Import PyBase PyNum PyVal Utf8 Tools DsNodes DsHeaders DsGroups Ds55 Ds58 Ds2414 Uff Facts IntFacts FloatFacts DecFacts FloatText FloatExact DictFacts
  Scan Container Append ContainerThms Utf8Facts Lines Stored Cells Rows RtNodes RtCs RtHeads RtElems RtGroups RtNodal RtFun RtFunSet RtAnalysis Witness
  PropNodes PropHeads PropGroups PropNodal PropFun PropAnalysis PropHistory Layout PropLayout Reading ReadNodes ReadSets.
From Coq Require Import Lia.
Open Scope string_scope.
Open Scope list_scope.
Open Scope nat_scope.

(** A header record of which further fields are looked for and skipped. *)
Lemma header_more : forall need room line fs tail mn widths types names ws,
  line_of false need room line fs -> forallb is_ws tail = true -> widths = map fwidth fs ++ ws -> length types = length fs -> length names = length fs + length ws -> mn <= length fs ->
  forallb (fun tf => hfits (fst tf) (snd tf)) (combine types fs) = true ->
  parse_header_line (line ++ tail) mn widths (types ++ repeat (-1)%Z (length ws)) names
  = Ok (put_all [] (combine names (map (fun tf => hval (fst tf) (snd tf)) (combine types fs) ++ repeat None (length ws)))).
Proof.
  intros need room line fs tail mn widths types names ws (cols & k & -> & Hc & _) Ht -> Hty Hn Hm Hf.
  assert (G : forall first cols fs types, columns false need first cols fs -> length types = length fs -> forallb (fun tf => hfits (fst tf) (snd tf)) (combine types fs) = true ->
     map (@length N) cols = map fwidth fs /\ length cols = length fs /\
     Forall2 (fun tf v => field_val (fst tf) (snd tf) = Ok v) (combine types (map strip cols)) (map (fun tf => hval (fst tf) (snd tf)) (combine types fs))).
  { clear. intros first cols. revert first. induction cols as [|c cols IH]; intros first [|f fs] types H Hl Hf; cbn [columns] in H; try contradiction.
    - split; [reflexivity|]. split; [reflexivity|]. destruct types; constructor.
    - destruct types as [|t types]; [discriminate|]. destruct H as (H1 & _ & H3). cbn [combine forallb fst snd] in Hf. apply andb_true_iff in Hf as [Hf1 Hf2].
      destruct (IH false fs types H3 ltac:(cbn in Hl; lia) Hf2) as (E1 & E2 & E3). destruct (hfits_val _ _ _ Hf1 H1) as [V1 V2].
      cbn [map combine length fst snd]. rewrite E1, E2, V2. split; [reflexivity|]. split; [reflexivity|]. constructor; [exact V1|assumption]. }
  destruct (G _ _ _ _ Hc Hty Hf) as (E1 & E2 & E3). clear G.
  apply (header_segs cols (repeat blank k ++ tail) _ mn _ ws).
  - apply app_assoc_reverse.
  - rewrite forallb_app, Ht, blanks_ws. reflexivity.
  - rewrite E1. reflexivity.
  - rewrite app_length, map_length, combine_length, repeat_length. unfold str in *. lia.
  - rewrite !app_length, map_length, combine_length, !repeat_length. lia.
  - rewrite !app_length, map_length, combine_length, !repeat_length. lia.
  - rewrite !app_length, map_length, combine_length, !repeat_length. lia.
  - assert (El : length types = length (map strip cols)) by (rewrite map_length; unfold str in *; lia).
    assert (Ec : combine (types ++ repeat (-1)%Z (length ws)) (map strip cols ++ repeat [] (length ws)) = combine types (map strip cols) ++ combine (repeat (-1)%Z (length ws)) (repeat (@nil N) (length ws))).
    { clear -El. revert El. generalize (map strip cols). intros l El. revert l El. induction types as [|t types IH]; intros [|x l] El; try discriminate; [reflexivity|]. cbn [app combine]. rewrite IH by (cbn in El; lia). reflexivity. }
    rewrite Ec. apply Forall2_app; [assumption|]. clear. induction (length ws); cbn [repeat combine]; constructor; [reflexivity|assumption].
Qed.
Lemma header_more' : forall need room p fs mn widths types names vals tys ws, line_of false need room (fst p) fs -> line_end (snd p) ->
  widths = map fwidth fs ++ ws -> types = tys ++ repeat (-1)%Z (length ws) -> length tys = length fs -> length names = length fs + length ws -> mn <= length fs ->
  forallb (fun tf => hfits (fst tf) (snd tf)) (combine tys fs) = true ->
  vals = put_all [] (combine names (map (fun tf => hval (fst tf) (snd tf)) (combine tys fs) ++ repeat None (length ws))) ->
  parse_header_line (whole p) mn widths types names = Ok vals.
Proof.
  intros need room [l e] fs mn widths types names vals tys ws H He -> -> Ht Hn Hm Hf ->. unfold whole. cbn [fst snd] in *. apply (header_more need room); try assumption; try reflexivity.
  apply line_end_ws. assumption.
Qed.
Ltac rd_more tys ws := erewrite (header_more' _ _ _ _ _ _ _ _ _ tys ws); [|eassumption|eassumption|reflexivity|reflexivity|reflexivity|reflexivity|cbn; lia|reflexivity|reflexivity]; cbn [rbind].

(** Lines of reals have at most ten blanks behind. *)
Definition room55 (fs : list field) (k : nat) : Prop := match fs with DR _ _ _ :: _ => k <= 10 | _ => True end.
Definition doc_modes (m : modes) : list (list field) :=
  match m with
  | Normal lc n f mm vi hi => [I10s [2; 4; lc; n]%Z; E13s [f; mm; vi; hi]]
  | Response lc n f => [I10s [2; 1; lc; n]%Z; E13s [f]]
  | Complex _ lc n e a b => [I10s [2; 6; lc; n]%Z; E13s [fst e; snd e; fst a; snd a; fst b; snd b]]
  end.
Definition fin_modes (m : modes) : Prop :=
  match m with Complex _ _ _ e a b => Forall okfin [fst e; snd e; fst a; snd a; fst b; snd b] | _ => True end.
Definition readable55 (r : data55) : Prop :=
  length (v_ids r) = 5 /\ fin_modes (v_modes r) /\
  Forall (fun w => length (snd w) = row_len (v_kind r) /\ match v_kind r with Cplx3 => Forall okfin (snd w) | _ => True end) (v_rows r).

Lemma modes_rd : forall m (lines : list str) p8 p9 a b c e f mo ch sp dt nn, fin_modes m ->
  nth_error lines 8 = Some (whole p8) -> nth_error lines 9 = Some (whole p9) -> line_end (snd p8) -> line_end (snd p9) ->
  Forall2 (line_of false sep_none room55) [fst p8; fst p9] (doc_modes m) ->
  read7_8 lines (pre55 a b c e f mo (analysis m) ch sp dt nn) = Ok (pre55 a b c e f mo (analysis m) ch sp dt nn ++ out_modes m).
Proof.
  intros m lines p8 p9 a b c e f mo ch sp dt nn Hw H8 H9 E8 E9 HR.
  unfold read7_8. change (ix (pre55 a b c e f mo (analysis m) ch sp dt nn) "analysis_type") with (@Ok pyval (VInt (analysis m))). cbn [rbind py_eqZ].
  destruct m as [lc n fr mm vi hi|lc n fr|s lc n ei ma mb]; cbn [analysis fin_modes doc_modes] in *;
    (inversion HR as [|? ? ? ? R8 HR']; subst; inversion HR' as [|? ? ? ? R9 _]; subst; clear HR HR').
  - cbn [Z.eqb Pos.eqb]. unfold H. cbn [header_recs h_line h_min h_widths h_types h_names]. unfold ln. rewrite H8, H9. cbn [of_option rbind].
    rd_more [-1; -1; 2; 2]%Z [10; 10; 10; 10]%nat. rd_more [3; 3; 3; 3]%Z [13; 13]%nat. reflexivity.
  - cbn [Z.eqb Pos.eqb orb]. unfold H. cbn [header_recs h_line h_min h_widths h_types h_names]. unfold ln. rewrite H8, H9. cbn [of_option rbind].
    rd_more [-1; -1; 2; 2]%Z [10; 10; 10; 10]%nat. rd_more [3]%Z [13; 13; 13; 13; 13]%nat. reflexivity.
  - assert (E2 : ((if s then 7 else 3) =? 2)%Z = false) by (destruct s; reflexivity). rewrite E2.
    assert (E3 : (((if s then 7 else 3) =? 3) || ((if s then 7 else 3) =? 7))%Z = true) by (destruct s; reflexivity). rewrite E3.
    unfold H. cbn [header_recs h_line h_min h_widths h_types h_names]. unfold ln. rewrite H8, H9. cbn [of_option rbind].
    rd_more [-1; -1; 2; 2]%Z [10; 10; 10; 10]%nat. rd_hdr.
    inversion Hw as [|? ? F1 Hf1]; subst. inversion Hf1 as [|? ? F2 Hf2]; subst. inversion Hf2 as [|? ? F3 Hf3]; subst.
    inversion Hf3 as [|? ? F4 Hf4]; subst. inversion Hf4 as [|? ? F5 Hf5]; subst. inversion Hf5 as [|? ? F6 _]; subst.
    set (d0 := dupdate _ _). unfold cjoin_keys.
    change (get_float d0 "modal_a_r") with (@Ok float (r6f (fst ma))). change (get_float d0 "modal_a_i") with (@Ok float (r6f (snd ma))).
    cbn [rbind]. rewrite r6c_join by assumption. set (d1 := dput d0 _ _).
    change (get_float d1 "modal_b_r") with (@Ok float (r6f (fst mb))). change (get_float d1 "modal_b_i") with (@Ok float (r6f (snd mb))).
    cbn [rbind]. rewrite r6c_join by assumption. set (d2 := dput d1 _ _).
    change (get_float d2 "eig_r") with (@Ok float (r6f (fst ei))). change (get_float d2 "eig_i") with (@Ok float (r6f (snd ei))).
    cbn [rbind]. rewrite r6c_join by assumption. reflexivity.
Qed.

(** The reals of a line cut into columns of 13. *)
Lemma chop_rd : forall need p fs, fs <> [] -> line_of false need room55 (fst p) (E13s fs) -> line_end (snd p) ->
  parse_floats (chop 13 (length (whole p) / 13) (whole p)) = Ok (map r6f fs).
Proof.
  intros need p fs Hne (cols & k & E & Hc & Hr) He. destruct (cols_width _ _ _ 13 _ _ Hc) as [G1 G2].
  { unfold E13s. rewrite Forall_map, Forall_forall. intros f _. split; reflexivity. }
  assert (E2 : whole p = concat cols ++ (repeat blank k ++ snd p)) by (unfold whole; rewrite E, app_assoc; reflexivity).
  assert (Hl : length (whole p) / 13 = length cols).
  { destruct fs as [|f fs]; [congruence|]. cbn [room55 E13s map] in Hr. rewrite E2, app_length, (concat_length_const _ 13) by assumption.
    rewrite app_length, repeat_length. assert (H2 : length (snd p) <= 2) by (destruct He as [-> | ->]; cbn; lia).
    symmetry. apply Nat.div_unique with (r := k + length (snd p)); unfold str in *; lia. }
  assert (Hn : forallb num (E13s fs) = true) by (apply forallb_forall; unfold E13s; intros f Hf; apply in_map_iff in Hf as (x & <- & _); reflexivity).
  assert (Hf := cols_floats _ _ _ _ Hc Hn). assert (Ev : map fval (E13s fs) = map r6f fs) by (unfold E13s; rewrite map_map; reflexivity).
  rewrite Hl, E2. rewrite chop_cols by (assumption || reflexivity). rewrite Hf, Ev. reflexivity.
Qed.
Lemma np_rows_rd : forall need k (rows : list (Z * list float)) ps, 1 <= k -> Forall (fun w => length (snd w) = k) rows -> lines_ok ps ->
  Forall2 (line_of false need room55) (map fst ps) (map (fun w => E13s (snd w)) rows) ->
  np_rows (map (fun s : str => chop 13 (length s / 13) s) (map whole ps)) = Ok (flat_map (fun w => map r6f (snd w)) rows).
Proof.
  intros need k rows ps Hk H Hl HR. unfold np_rows, rmap.
  assert (E : rseq (map parse_floats (map (fun s : str => chop 13 (length s / 13) s) (map whole ps))) = Ok (map (fun w => map r6f (snd w)) rows)).
  { revert ps Hl HR. induction H as [|w rows Hw H IH]; intros ps Hl HR.
    - destruct ps; [reflexivity|inversion HR].
    - destruct ps as [|p ps]; [inversion HR|]. cbn [map] in HR. inversion HR as [|? ? ? ? R1 R2]; subst. inversion Hl as [|? ? L1 L2]; subst.
      cbn [map rseq]. rewrite (chop_rd need p (snd w)); [|intro En; rewrite En in Hk; cbn in Hk; lia|assumption|apply L1]. cbn [rbind].
      rewrite IH by assumption. reflexivity. }
  rewrite E. cbn [rbind]. rewrite flat_map_concat_map. destruct rows as [|w rows]; [reflexivity|]. cbn [map].
  match goal with |- (if ?b then _ else _) = _ => replace b with true; [reflexivity|] end.
  symmetry. apply forallb_forall. intros x Hx. assert (Hlx : forall x, In x (map (fun w => map r6f (snd w)) (w :: rows)) -> length x = k).
  { intros y Hy. apply in_map_iff in Hy as (q & <- & Hq). rewrite map_length. rewrite Forall_forall in H. apply H. assumption. }
  rewrite (Hlx x Hx), (Hlx (map r6f (snd w))) by (left; reflexivity). apply Nat.eqb_refl.
Qed.
Lemma node_rd : forall need room (rows : list (Z * list float)) ps, lines_ok ps -> Forall2 (line_of false need room) (map fst ps) (map (fun w => [DI 10 (fst w)]) rows) ->
  parse_ints (map whole ps) = Ok (map fst rows).
Proof.
  intros need room rows. induction rows as [|w rows IH]; intros [|p ps] Hl HR; try (inversion HR; fail); [reflexivity|].
  cbn [map] in HR. inversion HR as [|? ? ? ? R1 R2]; subst. inversion Hl as [|? ? L1 L2]; subst. unfold parse_ints, rmap in *. cbn [map rseq].
  destruct R1 as (cols & k & E & Hc & _). destruct cols as [|c [|? ?]]; cbn [columns] in Hc; try tauto. destruct Hc as (Hh & _ & _).
  assert (Ei : py_int (whole p) = Ok (fst w)).
  { destruct Hh as (_ & a & b & ->). unfold whole. rewrite E. cbn [concat]. rewrite app_nil_r, <- !app_assoc. apply py_int_padded; [apply blanks_num|].
    rewrite !forallb_app, !blanks_num. apply line_end_num. apply L1. }
  rewrite Ei. cbn [rbind]. rewrite IH by assumption. reflexivity.
Qed.
Lemma every_val : forall k n rows, k < n -> Forall (fun w => length (snd w) = n) rows ->
  every k n (flat_map (fun w : Z * list float => map r6f (snd w)) rows) = map r6f (colf k rows).
Proof.
  intros k n rows Hk H. unfold colf. rewrite map_map. apply every_table; [assumption|]. intros w Hw. rewrite Forall_forall in H. assert (Hl := H w Hw).
  rewrite map_length. split; [assumption|]. apply map_nth_error. apply nth_error_nth'. lia.
Qed.

Lemma rd55 : forall r block ps ho, block_lines block ps -> Forall2 (line_of false sep_none room55) (map fst ps) (doc55 r) -> readable55 r ->
  extract_set 55 block ho = Ok (read55 r).
Proof.
  intros r block ps ho Hb H (Hid & Hm & Hrow). open_block Hb. unfold extract55, DsHeaders.H. rewrite block_keep by assumption. clear Eb.
  apply lines_tail, lines_tail in Hl. unfold doc55 in H. fold (doc_modes (v_modes r)) in H.
  destruct (v_ids r) as [|i1 [|i2 [|i3 [|i4 [|i5 [|? ?]]]]]] eqn:Eids; try discriminate. cbn [map app] in H.
  next p2 H Hl. next p3 H Hl. next p4 H Hl. next p5 H Hl. next p6 H Hl. next p7 H Hl.
  assert (Hd : exists f8 f9, doc_modes (v_modes r) = [f8; f9]) by (destruct (v_modes r); cbn; eauto). destruct Hd as (f8 & f9 & Ed).
  rewrite Ed in H. cbn [app] in H. next p8 H Hl. next p9 H Hl.
  assert (Hm2 : Forall2 (line_of false sep_none room55) [fst p8; fst p9] (doc_modes (v_modes r))) by (rewrite Ed; auto).
  cbn [map]. cbn [header_recs h_line h_min h_widths h_types h_names ln nth_error of_option rbind].
  rd_hdr. rd_hdr. rd_hdr. rd_hdr. rd_hdr. rd_hdr.
  match goal with |- context [read7_8 ?ls ?d] => set (lines := ls); change d with (pre55 (VStr (strip (firstn 80 i1))) (VStr (strip (firstn 80 i2))) (VStr (strip (firstn 80 i3))) (VStr (strip (firstn 80 i4))) (VStr (strip (firstn 80 i5)))
     (v_model r) (analysis (v_modes r)) (v_ch r) (v_spec r) (match v_kind r with Cplx3 => 5 | _ => 2 end)%Z (match v_kind r with Real6 => 6 | _ => 3 end)%Z) end.
  rewrite (modes_rd (v_modes r) lines p8 p9); [|assumption|reflexivity|reflexivity|assumption|assumption|assumption]. cbn [rbind].
  match goal with qs : list (str * str) |- _ => match type of Hl with lines_ok qs => rename qs into rs end end.
  assert (Es : skipn 10 lines = @map (str * str) str whole rs) by reflexivity.
  match goal with |- context [skipn 10 ?l] => change (skipn 10 l) with (@map (str * str) str whole rs) end. rewrite join_whole, split_lines by assumption.
  change (map (fun p : str * str => if true then fst p ++ snd p else fst p) rs) with (@map (str * str) str whole rs).
  assert (Hk : 1 <= row_len (v_kind r)) by (destruct (v_kind r); cbn; lia).
  assert (Hlen : Forall (fun w => length (snd w) = row_len (v_kind r)) (v_rows r)) by (eapply Forall_impl; [|exact Hrow]; intros w [Hw _]; exact Hw).
  assert (Hdoc : flat_map (fun w => [DI 10 (fst w)] :: map E13s (rows_of 6 (snd w))) (v_rows r) = flat_map (fun w => [[DI 10 (fst w)]; E13s (snd w)]) (v_rows r)).
  { rewrite Forall_forall in Hlen. rewrite !flat_map_concat_map. f_equal. apply map_ext_in. intros w Hw. rewrite rows_few; [reflexivity|]. unfold few. rewrite (Hlen w Hw). destruct (v_kind r); cbn; lia. }
  rewrite Hdoc in H. assert (D := fun j => every_doc _ _ _ 2 _ _ j H Hl (fun _ => eq_refl)). cbn beta in D.
  destruct (D 0 ltac:(lia)) as [La Ha]. destruct (D 1 ltac:(lia)) as [Lb Hb2]. cbn [nth] in Ha, Hb2. clear D.
  rewrite !every_map. assert (N0 := node_rd _ _ _ _ La Ha). assert (N1 := np_rows_rd _ _ _ _ Hk Hlen Lb Hb2).
  match goal with |- context [parse_ints ?x] => replace (parse_ints x) with (@Ok (list Z) (map fst (v_rows r))) by (symmetry; exact N0) end. cbn [rbind].
  match goal with |- context [np_rows ?x] => replace (np_rows x) with (@Ok (list float) (flat_map (fun w => map r6f (snd w)) (v_rows r))) by (symmetry; exact N1) end. cbn [rbind].
  match goal with |- context [pre55 ?a ?b ?c ?d ?e ?f ?g ?h ?i ?j ?k ++ ?m] => set (d0 := pre55 a b c d e f g h i j k ++ m) end.
  assert (Edt : ix d0 "data_type" = Ok (VInt (dtype55 (v_kind r)))) by (destruct (v_kind r); reflexivity).
  assert (End : ix d0 "n_data_per_node" = Ok (VInt (per_node (v_kind r)))) by (destruct (v_kind r); reflexivity).
  rewrite Edt, End. cbn [rbind].
  unfold d0, read55. rewrite Eids. destruct (v_kind r) eqn:Ek; cbn [dtype55 per_node py_eqZ Z.eqb Pos.eqb row_len out_rows] in *.
  - rewrite !(every_val _ 3) by (assumption || lia). destruct (v_modes r); reflexivity.
  - rewrite !(every_val _ 6) by (assumption || lia). destruct (v_modes r); reflexivity.
  - rewrite !(every_val _ 6) by (assumption || lia).
    assert (Hc : Forall (fun w : Z * list float => Forall okfin (snd w) /\ length (snd w) = 6) (v_rows r)) by (eapply Forall_impl; [|exact Hrow]; intros w [H1 H2]; split; assumption).
    assert (J0 := join_col 0 _ ltac:(lia) Hc). assert (J1 := join_col 1 _ ltac:(lia) Hc). assert (J2 := join_col 2 _ ltac:(lia) Hc).
    cbn [Nat.mul Nat.add] in J0, J1, J2. rewrite J0, J1, J2. cbn [rbind]. destruct (v_modes r); reflexivity.
Qed.
