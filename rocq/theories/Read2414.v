(** Reading documented blocks of the type 2414. *)
From Coq Require Import String List NArith ZArith Bool Lia.
Import ListNotations.
From Verif Require Import PyBase PyNum PyVal Utf8 Tools DsNodes DsHeaders DsGroups Ds55 Ds58 Ds2414 Uff Facts IntFacts FloatFacts DecFacts FloatText FloatExact DictFacts
  Scan Container Append ContainerThms Utf8Facts Lines Stored Cells Rows RtNodes RtCs RtHeads RtElems RtGroups RtNodal RtFun RtFunSet RtAnalysis Witness
  PropNodes PropHeads PropGroups PropNodal PropFun PropAnalysis PropHistory Layout PropLayout Reading ReadNodes ReadSets.
From Coq Require Import Lia.
Open Scope string_scope.
Open Scope list_scope.
Open Scope nat_scope.

(** Frequency responses: 1 to 3 complex finite values for each node.  Other data:
    values on one line for each node or element. *)
Definition readable2414 (a : ana) : Prop :=
  length (n_ids a) = 5 /\ length (n_r10 a) = 8 /\ length (n_r11 a) = (if is_freq (n_body a) then 2 else 8) /\
  length (n_r12 a) = 6 /\ length (n_r13 a) = 6 /\ kind_ok a /\
  match n_body a with
  | AFreq rows => (1 <= n_nv a <= 3)%Z /\ Forall (fun w => length (snd w) = 2 * Z.to_nat (n_nv a) /\ Forall okfin (snd w)) rows
  | ANodes rows | AElems rows => rows <> [] /\ Forall (fun w => few 6 (snd w)) rows
  | AOn els => Forall (fun e => lines_of e = Z.of_nat (length (o_rows e)) /\ Forall (few 6) (o_rows e)) els
  | ANone => True
  end.

Lemma line_fits : forall dx need room line l, line_of dx need room line (I10s l) -> Forall (fits 10) l.
Proof.
  intros dx need room line l (cols & k & _ & Hc & _). remember true as first eqn:E in Hc. clear E. unfold I10s in Hc. revert first l Hc.
  induction cols as [|t cols IH]; intros first [|z l] Hc; cbn [map columns] in Hc; try contradiction; [constructor|].
  destruct Hc as ((Hl & a & b & ->) & _ & Hc). constructor; [|eapply IH; exact Hc].
  rewrite !app_length in Hl. assert (Hd : length (dec_Z z) <= 10) by lia. apply (proj1 (dec_Z_length z 10 ltac:(lia))) in Hd. exact Hd.
Qed.
Lemma header_int : forall dx need room line z tail k, line_of dx need room line [DI 10 z] -> forallb is_ws tail = true ->
  parse_header_line (line ++ tail) 1 [80] [2%Z] [k] = Ok [(KS k, VInt z)].
Proof.
  intros dx need room line z tail k (cols & n & -> & Hc & _) Ht. destruct cols as [|t [|? ?]]; cbn [columns] in Hc; try contradiction; [|destruct Hc as (_ & _ & [])].
  destruct Hc as ((Hl & a & b & Et) & _). cbn [concat]. rewrite app_nil_r.
  rewrite (header_fields _ _ _ _ _ [dec_Z z] [Some (VInt z)]); try reflexivity.
  - cbn [cut_fields]. f_equal. destruct (extend80_app ((t ++ repeat blank n) ++ tail)) as [m ->].
    rewrite <- !app_assoc. rewrite firstn_app. rewrite (firstn_all2 t) by lia.
    unfold strip. rewrite strip_by_post by (apply forallb_firstn; rewrite !forallb_app, !blanks_ws, Ht; reflexivity).
    fold (strip t). rewrite Et, strip_pad. apply strip_dec.
  - constructor; [|constructor]. cbn [fst snd]. assert (E := fv_int 10 z). rewrite strip_rjust, strip_dec in E. exact E.
Qed.
Lemma int_whole : forall dx need room p z k, line_of dx need room (fst p) [DI 10 z] -> line_end (snd p) ->
  parse_header_line (whole p) 1 [80] [2%Z] [k] = Ok [(KS k, VInt z)].
Proof. intros dx need room [l e] z k H He. apply (header_int dx need room); [assumption|apply line_end_ws; assumption]. Qed.

(** The values of a line. *)
Lemma E13s_vals : forall l, map fval (E13s l) = map r6f l.
Proof. intro l. unfold E13s. rewrite map_map. reflexivity. Qed.
Lemma E13s_nums : forall l, nums sep_next (E13s l).
Proof. intro l. apply nums_all. unfold E13s. rewrite Forall_map, Forall_forall. intros z _. split; reflexivity. Qed.
Lemma row_rd : forall room line l, line_of false sep_next room line (E13s l) -> float_row line = Ok (frow l).
Proof.
  intros room line l (cols & k & -> & Hc & _). unfold float_row. rewrite split_trail.
  destruct (cols_split _ _ _ _ _ Hc) as (toks & -> & Ht); [apply E13s_nums|apply E13s_nums|].
  rewrite (toks_floats_id _ _ Ht). cbn [rbind]. rewrite E13s_vals. reflexivity.
Qed.
Lemma rows_rd : forall A room (g : A -> list float) ls rows, Forall2 (fun l w => line_of false sep_next room l (E13s (g w))) ls rows ->
  rmap float_row ls = Ok (map (fun w => frow (g w)) rows).
Proof.
  intros A room g ls rows H. unfold rmap. induction H as [|l w ls rows Hl _ IH]; [reflexivity|]. cbn [map rseq]. rewrite (row_rd _ _ _ Hl). cbn [rbind].
  rewrite IH. reflexivity.
Qed.
Lemma heads_rd : forall A room (g : A -> list Z) ls rows, Forall2 (fun l w => line_of false sep_next room l (I10s (g w))) ls rows ->
  map split ls = map (fun w => map dec_Z (g w)) rows /\ Forall (fun w => Forall (fits 10) (g w)) rows.
Proof.
  intros A room g ls rows H. induction H as [|l w ls rows Hl _ [IH1 IH2]]; [split; [reflexivity|constructor]|]. cbn [map]. split.
  - f_equal; [|exact IH1]. rewrite <- (app_nil_r l). eapply line_split; [exact Hl|reflexivity].
  - constructor; [eapply line_fits; exact Hl|assumption].
Qed.
(** Two lines for each entry. *)
Lemma pairs_of : forall A (R : str -> list field -> Prop) (h v : A -> list field) ls rows, Forall2 R ls (flat_map (fun w => [h w; v w]) rows) ->
  Forall2 (fun l w => R l (h w)) (every 0 2 ls) rows /\ Forall2 (fun l w => R l (v w)) (every 1 2 ls) rows.
Proof.
  intros A R h v ls rows. revert ls. induction rows as [|w rows IH]; intros ls H; cbn [flat_map app] in H.
  - inversion H; subst. split; constructor.
  - inversion H as [|l1 ? ls1 ? H1 H']; subst. inversion H' as [|l2 ? ls2 ? H2 H3]; subst. destruct (IH _ H3) as [G1 G2].
    assert (E0 : every 0 2 (l1 :: l2 :: ls2) = l1 :: every 0 2 ls2) by reflexivity.
    assert (E1 : every 1 2 (l1 :: l2 :: ls2) = l2 :: every 1 2 ls2) by reflexivity.
    rewrite E0, E1. split; constructor; assumption.
Qed.
Lemma doc_few : forall (h : Z * list float -> list field) rows, Forall (fun w => few 6 (snd w)) rows ->
  flat_map (fun w => h w :: map E13s (rows_of 6 (snd w))) rows = flat_map (fun w => [h w; E13s (snd w)]) rows.
Proof.
  intros h rows H. induction H as [|w rows Hw _ IH]; [reflexivity|]. cbn [flat_map]. rewrite rows_few by assumption. cbn [map app]. f_equal. f_equal. exact IH.
Qed.

(** Frequency responses. *)
Lemma freq_rd : forall d nv dt rows ps, lines_ok ps -> (1 <= nv <= 3)%Z ->
  Forall2 (line_of false sep_next anyroom) (map fst ps) (flat_map (fun w => [DI 10 (fst w)] :: map E13s (rows_of 6 (snd w))) rows) ->
  Forall (fun w => length (snd w) = 2 * Z.to_nat nv /\ Forall okfin (snd w)) rows ->
  ix d "number_of_data_values_for_the_data_component" = Ok (VInt nv) -> ix d "data_type" = Ok (VInt dt) ->
  freq_data d (split (text_of ps)) = Ok (dupdate d (out_body nv dt (AFreq rows))).
Proof.
  intros d nv dt rows ps Hps Hn H Hw E1 E2. unfold freq_data. rewrite E1, E2. cbn [rbind py_eqZ out_body]. destruct (dt =? 5)%Z; [|reflexivity].
  set (n := 2 * Z.to_nat nv) in *.
  assert (Hfew : Forall (fun w : Z * list float => few 6 (snd w)) rows).
  { eapply Forall_impl; [|exact Hw]. intros w [L _]. unfold few. rewrite L. unfold n. lia. }
  rewrite (doc_few (fun w => [DI 10 (fst w)])) in H by assumption.
  destruct (lines_split _ _ _ ps _ Hps H) as (toks & Et & Ht).
  { apply Forall_flat. intros w _. constructor; [repeat constructor|]. constructor; [apply E13s_nums|constructor]. }
  rewrite Et, (toks_floats_id _ _ Ht). cbn [rbind]. rewrite (proj2 (Z.ltb_ge nv 0)) by lia. cbv zeta.
  destruct (pairs_of _ _ _ _ _ _ H) as [P _]. destruct (heads_rd _ _ (fun w : Z * list float => [fst w]) _ _ P) as [_ Hfit]. clear P.
  match goal with |- context [every 0 _ ?v] => assert (Ef : v = flat_map (fun w => float_of_Z (fst w) :: map r6f (snd w)) rows) end.
  { clear. induction rows as [|[z l] rows IH]; [reflexivity|]. cbn [flat_map]. rewrite concat_app, map_app, IH. cbn [concat map app fst snd]. rewrite app_nil_r, E13s_vals. reflexivity. }
  rewrite Ef. clear Ef. set (vs := flat_map _ rows).
  replace (Z.to_nat nv * 2 + 1) with (S n) by (unfold n; lia).
  assert (V0 : every 0 (S n) vs = map float_of_Z (map fst rows)).
  { rewrite map_map. apply every_table; [lia|]. intros w Hi. rewrite Forall_forall in Hw. destruct (Hw w Hi) as (L & _).
    cbn [length nth_error]. rewrite map_length. split; [f_equal; assumption|reflexivity]. }
  assert (VS : forall j, j < n -> every (S j) (S n) vs = map r6f (colf j rows)).
  { intros j Hj. unfold colf. rewrite map_map. apply every_table; [lia|]. intros w Hi. rewrite Forall_forall in Hw. destruct (Hw w Hi) as (L & _).
    cbn [length nth_error]. rewrite map_length. split; [f_equal; assumption|]. apply map_nth_error, nth_error_nth'. unfold n in *. lia. }
  rewrite V0, trunc_ok by (rewrite Forall_map; eapply Forall_impl; [|exact Hfit]; intros w F; inversion F; assumption). cbn [rbind].
  rewrite (VS 0), (VS 1) by (unfold n; lia). rewrite (join_pairs 0 n) by (assumption || (unfold n; lia)). cbn [rbind].
  destruct (2 <=? nv)%Z eqn:N2.
  - apply Z.leb_le in N2. rewrite (VS 2), (VS 3) by (unfold n; lia). rewrite (join_pairs 1 n) by (assumption || (unfold n; lia)). cbn [rbind].
    destruct (3 <=? nv)%Z eqn:N3.
    + apply Z.leb_le in N3. rewrite (VS 4), (VS 5) by (unfold n; lia). rewrite (join_pairs 2 n) by (assumption || (unfold n; lia)). reflexivity.
    + reflexivity.
  - apply Z.leb_gt in N2. rewrite (proj2 (Z.leb_gt 3 nv)) by lia. reflexivity.
Qed.

(** Data at the nodes of elements. *)
Definition elem_rd (ls : list str) (el : on_elem) : Prop :=
  exists h mid, ls = h :: mid /\ split h = map dec_Z (on_head el) /\ rmap float_row mid = Ok (map frow (o_rows el)) /\
    lines_of el = Z.of_nat (length mid).
Lemma loop_on : forall els lss (pre : list str) don fuel, Forall2 elem_rd lss els -> length els <= fuel ->
  loop2414 fuel (pre ++ concat lss) (Z.of_nat (length pre)) (st_of don) = Ok (st_of (don ++ els)).
Proof.
  intros els lss pre don fuel H. revert pre don fuel. induction H as [|ls el lss els (h & mid & -> & Hs & Hr & Hk) _ IH]; intros pre don fuel Hf.
  - cbn [concat]. rewrite !app_nil_r. destruct fuel; cbn [loop2414]; rewrite Z.ltb_irrefl; reflexivity.
  - destruct fuel as [|fuel]; [cbn in Hf; lia|]. cbn [concat]. set (lines := pre ++ (h :: mid) ++ concat lss). cbn [loop2414].
    match goal with |- (if ?b then _ else _) = _ => assert (Hlt : b = true) end.
    { apply Z.ltb_lt. unfold lines. rewrite !app_length. cbn [length]. lia. }
    rewrite Hlt. rewrite (py_nth_ok _ lines (length pre) h).
    2:{ unfold lines. rewrite nth_error_app2, Nat.sub_diag by lia. reflexivity. }
    cbn [rbind]. rewrite Hs. cbn [on_head map]. unfold tok_int. cbn [ln nth_error of_option rbind].
    rewrite !py_int_dec. cbn [rbind]. fold (lines_of el). rewrite Hk.
    assert (El : lines = (pre ++ [h]) ++ mid ++ concat lss) by (unfold lines; rewrite <- app_assoc; reflexivity).
    replace (Z.of_nat (length pre) + 1)%Z with (Z.of_nat (length (pre ++ [h]))) by (rewrite app_length; cbn [length]; lia).
    rewrite <- Nat2Z.inj_add, El, slice_mid. rewrite Hr. cbn [rbind].
    rewrite app_assoc. rewrite <- app_length.
    specialize (IH ((pre ++ [h]) ++ mid) (don ++ [el]) fuel ltac:(cbn in Hf; lia)).
    replace (don ++ el :: els) with ((don ++ [el]) ++ els) by (rewrite <- app_assoc; reflexivity). rewrite <- IH. f_equal. unfold st_of. rewrite !map_app. reflexivity.
Qed.
Lemma on_rd : forall ls els,
  Forall2 (line_of false sep_next anyroom) ls (flat_map (fun e => I10s [o_num e; o_exp e; o_nodes e; o_per e] :: flat_map (fun row => map E13s (rows_of 6 row)) (o_rows e)) els) ->
  Forall (fun e => lines_of e = Z.of_nat (length (o_rows e)) /\ Forall (few 6) (o_rows e)) els ->
  exists lss, ls = concat lss /\ Forall2 elem_rd lss els /\ length els <= length ls /\ Forall (fun e => Forall (fits 10) (on_head e)) els.
Proof.
  intros ls els H Hr. destruct (Forall2_flat _ _ _ _ _ _ _ H) as (lss & -> & H2). exists lss. split; [reflexivity|]. clear H. revert Hr.
  induction H2 as [|g e lss els Hg _ IH]; intro Hr; [split; [constructor|]; split; [cbn; lia|constructor]|].
  inversion Hr as [|? ? [Hk Hf] Hr']; subst. destruct (IH Hr') as (I1 & I2 & I3). inversion Hg as [|h ? mid ? Hh Hm]; subst.
  assert (Em : flat_map (fun row => map E13s (rows_of 6 row)) (o_rows e) = map E13s (o_rows e)).
  { clear -Hf. induction Hf as [|r rows Hr _ IH]; [reflexivity|]. cbn [flat_map map]. rewrite rows_few by assumption. cbn [map app]. f_equal. exact IH. }
  rewrite Em in Hm.
  assert (Hm' : Forall2 (fun l w => line_of false sep_next anyroom l (E13s w)) mid (o_rows e)).
  { clear -Hm. remember (map E13s (o_rows e)) as rs eqn:E. revert E. generalize (o_rows e). induction Hm as [|x r ls rs Hx _ IH]; intros [|z zs] E; inversion E; subst; constructor; auto. }
  split; [|split; [cbn [concat length]; rewrite app_length; cbn [length]; lia|]].
  - constructor; [|assumption]. exists h, mid. split; [reflexivity|]. split; [|split].
    + rewrite <- (app_nil_r h). eapply line_split; [exact Hh|reflexivity].
    + apply (rows_rd _ anyroom (fun w => w)). exact Hm'.
    + rewrite Hk. f_equal. symmetry. apply (Forall2_len _ _ _ _ _ Hm').
  - constructor; [eapply line_fits; exact Hh|assumption].
Qed.
Lemma loc_rd : forall d a nv dt fuel ls, ix d "dataset_location" = Ok (VInt (n_loc a)) -> is_freq (n_body a) = false -> readable2414 a ->
  Forall2 (line_of false sep_next anyroom) ls (match n_body a with
    | AFreq rows | ANodes rows => flat_map (fun w => [DI 10 (fst w)] :: map E13s (rows_of 6 (snd w))) rows
    | AElems rows => flat_map (fun w => I10s [fst w; Z.of_nat (length (snd w))] :: map E13s (rows_of 6 (snd w))) rows
    | AOn els => flat_map (fun e => I10s [o_num e; o_exp e; o_nodes e; o_per e] :: flat_map (fun row => map E13s (rows_of 6 row)) (o_rows e)) els
    | ANone => []
    end) ->
  length ls <= fuel -> loc_data fuel d ls = Ok (dupdate d (out_body nv dt (n_body a))).
Proof.
  intros d a nv dt fuel ls El Hf (_ & _ & _ & _ & _ & Hk & Hr) H Hl. unfold loc_data. rewrite El. cbn [rbind py_eqZ]. unfold kind_ok in Hk.
  destruct (n_body a) as [rows|rows|rows|els|]; try discriminate Hf; cbn [out_body] in *; destruct Hk as [_ Hk].
  - rewrite Hk. cbn [Z.eqb Pos.eqb]. destruct Hr as [Hne Hw]. rewrite (doc_few (fun w => [DI 10 (fst w)])) in H by assumption.
    destruct (pairs_of _ _ _ _ _ _ H) as [P0 P1]. rewrite (rows_rd _ anyroom snd _ _ P1). cbn [rbind].
    destruct (heads_rd _ anyroom (fun w : Z * list float => [fst w]) _ _ P0) as [-> Hfit]. rewrite Forall_forall in Hfit.
    rewrite (str_column_ok _ (fun w : Z * list float => [fst w]) fst 0 1) by (assumption || (intros w Hi; repeat split; specialize (Hfit w Hi); inversion Hfit; apply H2)).
    reflexivity.
  - rewrite Hk. cbn [Z.eqb Pos.eqb]. destruct Hr as [Hne Hw]. rewrite (doc_few (fun w => I10s [fst w; Z.of_nat (length (snd w))])) in H by assumption.
    destruct (pairs_of _ _ _ _ _ _ H) as [P0 P1]. rewrite (rows_rd _ anyroom snd _ _ P1). cbn [rbind].
    destruct (heads_rd _ anyroom (fun w : Z * list float => el_head w) _ _ P0) as [-> Hfit]. rewrite Forall_forall in Hfit.
    rewrite (str_column_ok _ el_head fst 0 2) by (assumption || (intros w Hi; repeat split; specialize (Hfit w Hi); inversion Hfit; subst; apply H2)).
    cbn [rbind].
    rewrite (str_column_ok _ el_head (fun w => Z.of_nat (length (snd w))) 1 2) by (assumption || (intros w Hi; repeat split; specialize (Hfit w Hi); unfold el_head in Hfit; inversion Hfit as [|? ? _ Hfit']; inversion Hfit' as [|? ? F _]; apply F)).
    reflexivity.
  - rewrite Hk. cbn [Z.eqb Pos.eqb]. destruct (on_rd _ _ H Hr) as (lss & Els & He & Hlen & Hfit).
    assert (L := loop_on els lss [] [] fuel He ltac:(lia)). rewrite <- Els in L.
    cbn [app length Z.of_nat] in L. change (st_of []) with {| s_el := []; s_ie := []; s_nn := []; s_nv := []; s_da := [] |} in L. rewrite L. cbn [rbind st_of s_el s_ie s_nn s_nv s_da].
    rewrite !np_int_ok; [reflexivity| | | |]; rewrite Forall_map; (eapply Forall_impl; [|exact Hfit]); intros el F; unfold on_head in F;
      repeat match goal with H : Forall (fits 10) (_ :: _) |- _ => inversion H; subst; clear H end; assumption.
  - cbn [In] in Hk.
    rewrite (proj2 (Z.eqb_neq (n_loc a) 1)), (proj2 (Z.eqb_neq (n_loc a) 2)), (proj2 (Z.eqb_neq (n_loc a) 3)) by (intro Q; apply Hk; auto 10). reflexivity.
Qed.

Lemma out_new : forall a, length (n_ids a) = 5 -> length (n_r10 a) = 8 -> length (n_r11 a) = (if is_freq (n_body a) then 2 else 8) ->
  length (n_r12 a) = 6 -> length (n_r13 a) = 6 ->
  dupdate (pre2414 a ++ recs_out a) (out_body (n_nv a) (n_dt a) (n_body a)) = read2414 a.
Proof.
  intros a Lid L1 L2 L3 L4. unfold read2414. rewrite app_assoc. apply dupdate_new.
  - destruct (n_body a); cbn [out_body]; [destruct (n_dt a =? 5)%Z; [destruct (2 <=? n_nv a)%Z, (3 <=? n_nv a)%Z|]| | | |]; cbn [app map fst];
      repeat (apply NoDup_cons; [intro Q; cbn [In] in Q; repeat (destruct Q as [Q|Q]; [discriminate Q|]); contradiction|]); apply NoDup_nil.
  - unfold pre2414, recs_out, k10, k11, k12, k13.
    destruct (n_ids a) as [|i1 [|i2 [|i3 [|i4 [|i5 [|? ?]]]]]]; try discriminate Lid.
    destruct (n_r10 a) as [|a1 [|a2 [|a3 [|a4 [|a5 [|a6 [|a7 [|a8 [|? ?]]]]]]]]]; try discriminate L1.
    destruct (n_r12 a) as [|c1 [|c2 [|c3 [|c4 [|c5 [|c6 [|? ?]]]]]]]; try discriminate L3.
    destruct (n_r13 a) as [|e1 [|e2 [|e3 [|e4 [|e5 [|e6 [|? ?]]]]]]]; try discriminate L4.
    destruct (n_body a); cbn [is_freq] in *;
    [destruct (n_r11 a) as [|b1 [|b2 [|? ?]]]; try discriminate L2; cbn [out_body]; destruct (n_dt a =? 5)%Z; [destruct (2 <=? n_nv a)%Z, (3 <=? n_nv a)%Z|]
    |destruct (n_r11 a) as [|b1 [|b2 [|b3 [|b4 [|b5 [|b6 [|b7 [|b8 [|? ?]]]]]]]]]; try discriminate L2; cbn [out_body]..];
    repeat constructor.
Qed.
Lemma rd2414 : forall a block ps ho, block_lines block ps -> Forall2 (line_of false sep_next anyroom) (map fst ps) (doc2414 a) -> readable2414 a ->
  extract_set 2414 block ho = Ok (read2414 a).
Proof.
  intros a block ps ho Hb H Hr. assert (Hr' := Hr). destruct Hr as (Lid & L1 & L2 & L3 & L4 & Hk & Hbody).
  assert (Eu := out_new a Lid L1 L2 L3 L4).
  open_block Hb. unfold extract2414, extract2414_fuel. rewrite block_keep by assumption. clear Eb. cbv zeta.
  apply lines_tail, lines_tail in Hl. unfold doc2414 in H.
  destruct (n_ids a) as [|i1 [|i2 [|i3 [|i4 [|i5 [|? ?]]]]]] eqn:Eids; try discriminate. cbn [map app] in H.
  next p2 H Hl. next p3 H Hl. next p4 H Hl. next p5 H Hl. next p6 H Hl. next p7 H Hl. next p8 H Hl. next p9 H Hl. next q1 H Hl. next q2 H Hl. next q3 H Hl. next q4 H Hl. next q5 H Hl.
  match goal with qs : list (str * str) |- _ => match type of Hl with lines_ok qs => rename qs into rs end end.
  set (fuel := 2 * _ + 2). assert (Hfuel : length rs <= fuel) by (unfold fuel; cbn [map length]; rewrite map_length; lia). clearbody fuel.
  cbn [map firstn skipn]. match goal with |- context [join ?l] => change (join l) with (text_of rs) end.
  match goal with |- context [header_recs ?h _ recs2414_head] => set (hd := h) end.
  assert (HE1 : header_recs hd [(KS "type", VInt 2414)] recs2414_head = Ok (pre2414 a)).
  { unfold recs2414_head, DsHeaders.H, hd. cbn [header_recs h_line h_min h_widths h_types h_names ln nth_error of_option rbind].
    erewrite int_whole by eassumption. cbn [rbind]. rd_hdr. erewrite int_whole by eassumption. cbn [rbind]. rd_hdr. rd_hdr. rd_hdr. rd_hdr. rd_hdr. rd_hdr.
    unfold pre2414. rewrite Eids. reflexivity. }
  assert (HE2 : header_recs hd (pre2414 a) (if is_freq (n_body a) then recs2414_5 else recs2414_n) = Ok (pre2414 a ++ recs_out a)).
  { clear Hbody Eu Hk. clear HE1. unfold pre2414, recs_out, k10, k11, k12, k13. rewrite Eids.
    destruct (n_r10 a) as [|a1 [|a2 [|a3 [|a4 [|a5 [|a6 [|a7 [|a8 [|? ?]]]]]]]]]; try discriminate L1.
    destruct (n_r12 a) as [|c1 [|c2 [|c3 [|c4 [|c5 [|c6 [|? ?]]]]]]]; try discriminate L3.
    destruct (n_r13 a) as [|e1 [|e2 [|e3 [|e4 [|e5 [|e6 [|? ?]]]]]]]; try discriminate L4.
    destruct (is_freq (n_body a)).
    - destruct (n_r11 a) as [|b1 [|b2 [|? ?]]]; try discriminate L2. unfold recs2414_5, DsHeaders.H, hd.
      cbn [header_recs h_line h_min h_widths h_types h_names ln nth_error of_option rbind]. rd_hdr. rd_hdr. rd_hdr. rd_hdr. reflexivity.
    - destruct (n_r11 a) as [|b1 [|b2 [|b3 [|b4 [|b5 [|b6 [|b7 [|b8 [|? ?]]]]]]]]]; try discriminate L2. unfold recs2414_n, DsHeaders.H, hd.
      cbn [header_recs h_line h_min h_widths h_types h_names ln nth_error of_option rbind]. rd_hdr. rd_hdr. rd_hdr. rd_hdr. reflexivity. }
  rewrite HE1. cbn [rbind].
  assert (X1 : ix (pre2414 a) "analysis_type" = Ok (VInt (n_an a))) by (unfold pre2414; rewrite Eids; reflexivity).
  assert (X2 : ix (pre2414 a) "dataset_location" = Ok (VInt (n_loc a))) by (unfold pre2414; rewrite Eids; reflexivity).
  assert (X3 : ix (pre2414 a) "data_type" = Ok (VInt (n_dt a))) by (unfold pre2414; rewrite Eids; reflexivity).
  assert (X4 : ix (pre2414 a) "number_of_data_values_for_the_data_component" = Ok (VInt (n_nv a))) by (unfold pre2414; rewrite Eids; reflexivity).
  rewrite X1. cbn [rbind py_eqZ].
  destruct (is_freq (n_body a)) eqn:Ef.
  - destruct (n_body a) as [rows|rows|rows|els|] eqn:Eb; try discriminate Ef. unfold kind_ok in Hk. rewrite Eb in Hk. rewrite Hk. cbn [Z.eqb Pos.eqb].
    rewrite HE2. cbn [rbind]. destruct Hbody as [Hn Hw].
    rewrite (freq_rd (pre2414 a ++ recs_out a) (n_nv a) (n_dt a) rows rs Hl Hn H Hw (ix_app _ _ _ _ X4) (ix_app _ _ _ _ X3)). rewrite Eu. reflexivity.
  - assert (Hn : (n_an a =? 5)%Z = false).
    { apply Z.eqb_neq. clear - Hk Ef. unfold kind_ok in Hk. destruct (n_body a); try discriminate; apply Hk. }
    rewrite Hn, HE2. cbn [rbind]. rewrite split_lines by assumption.
    match goal with |- context [loc_data _ _ ?l] => change l with (@map (str * str) str (@fst str str) rs) end.
    rewrite (loc_rd (pre2414 a ++ recs_out a) a (n_nv a) (n_dt a) fuel _ (ix_app _ _ _ _ X2) Ef Hr' H); [rewrite Eu; reflexivity|]. rewrite map_length. assumption.
Qed.
