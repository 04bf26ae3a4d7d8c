(** General forms of some refutations: for a whole class of dictionaries, what the
    file holds and what reading it back gives. *)
From Coq Require Import String List NArith ZArith Bool Lia.
Import ListNotations.
From Verif Require Import PyBase PyNum PyVal Utf8 Tools DsNodes DsHeaders Uff Facts Scan Container Append ContainerThms Utf8Facts DictFacts IntFacts FloatFacts DecFacts FloatText Lines Stored Cells Rows
  RtNodes RtCs RtHeads RtNodal RtElems Ds55 DsGroups Witness PropNodes PropHeads PropNodal PropGroups PropNumeral Returns.
From Coq Require Import Lia.
Open Scope string_scope.
Open Scope list_scope.
Open Scope nat_scope.

(* ------------------------------------------------------------------ *)
(** C40, for all sets: which record numbers, octave formats and measurement runs
    come back. *)

(** All fields fit the columns they are written in. *)
Definition wide1858 (q : qual) : Prop :=
  fits 10 (q_rec q) /\ fits 10 (q_oct q) /\ fits 10 (q_run q) /\ Forall (fits 6) (q_ints q) /\
  Forall (fun f => f_valid f = true) (q_z q) /\ Forall (fun f => f_valid f = true) (q_user q) /\
  short_plain 4 (q_resp q) /\ short_plain 4 (q_ref q) /\ q_ref q <> lit "  -1".

Lemma dirs_ok' : forall q, wide1858 q -> okline (cells_text (dirs q)) /\ Forall width_ok (dirs q).
Proof.
  intros q (_ & _ & _ & _ & _ & _ & P1 & P2 & Hne).
  apply (dirs_ok {| q_rec := 0; q_oct := 0; q_run := 0; q_ints := []; q_z := []; q_user := []; q_resp := q_resp q; q_ref := q_ref q |}).
  unfold wf1858; cbn [q_rec q_oct q_run q_ints q_z q_user q_resp q_ref]. do 3 (split; [split; reflexivity|]). do 3 (split; [constructor|]). auto.
Qed.
Lemma written1858 : forall c m fd d q, repr1858 d q -> wide1858 q ->
  writes (set_items c m fd d) (TLINE ++ unlines (type_hdr 1858 :: lines1858 q) ++ TLINE) /\ Forall okline (type_hdr 1858 :: lines1858 q) /\ type_line 1858 (type_hdr 1858) = true.
Proof.
  intros c m fd d q (Hty & Hdat & R1 & R2 & R3 & R4 & R5 & R6 & R7 & R8) Hw. assert (Hw' := Hw).
  destruct Hw' as (W1 & W2 & W3 & W4 & W5 & W6 & W7 & W8 & W9).
  destruct (type_hdr_ok 1858 ltac:(lia)) as [Ht Hh].
  assert (Li : length (q_ints q) = 9) by (rewrite <- (Forall2_len _ _ _ _ _ R4); reflexivity).
  assert (Lz : length (q_z q) = 4) by (rewrite <- (Forall2_len _ _ _ _ _ R5); reflexivity).
  assert (Lu : length (q_user q) = 5) by (rewrite <- (Forall2_len _ _ _ _ _ R6); reflexivity).
  destruct (flts_ok (q_z q ++ [f_zero])) as [Oz Wz]; [destruct (q_z q); discriminate|rewrite app_length; cbn; lia|apply Forall_app; auto|].
  destruct (flts_ok (q_user q)) as [Ou Wu]; [destruct (q_user q); discriminate|lia|assumption|].
  destruct (flts_ok (repeat f_zero 5)) as [Oo Wo]; [discriminate|cbn; lia|repeat constructor|].
  destruct (dirs_ok' q Hw) as [Od Wd].
  split; [|split; [|assumption]].
  - rewrite (set_items_text c m fd d (VInt 1858) Hty Hdat). change (write_dispatch c m fd (VInt 1858) d) with (write1858 d). unfold write1858. change ints1858 with keys1858.
    cbn [wp_items].
    rewrite hdr_writes. unfold lines1858. rewrite !unlines_cons'.
    eapply writes_eq.
    { apply writes_consr; [reflexivity|].
      apply (writes_line _ _ (rec1858 q)); [reflexivity|cbn [rec1858 map cells_args app]; repeat split; auto using has_gi; reflexivity|].
      apply (writes_line _ _ (map (CI 6) (q_ints q ++ [0; 0; 0]%Z))).
      { destruct (list9 _ _ Li) as (? & ? & ? & ? & ? & ? & ? & ? & ? & ->). reflexivity. }
      { rewrite map_app, <- app_assoc. eapply cells_args_list; [apply ca_int|exact R4|]. cbn. repeat split. }
      apply (writes_line _ _ (map (CE 15 7) (q_z q ++ [f_zero]))).
      { destruct (list4 _ _ Lz) as (? & ? & ? & ? & ->). reflexivity. }
      { rewrite map_app, <- app_assoc. change [ix d "z_rpm_value"; ix d "z_time_value"; ix d "z_order_value"; ix d "num_of_samples"; Tools.I 0] with (map (ix d) zs1858 ++ [Tools.I 0]).
        eapply cells_args_list; [apply ca_flt|exact R5|]. cbn. repeat split. }
      apply (writes_line _ _ (map (CE 15 7) (q_user q))).
      { destruct (list5 _ _ Lu) as (? & ? & ? & ? & ? & ->). reflexivity. }
      { rewrite <- (app_nil_r [ix d "user_value_1"; _; _; _; _]).
        change [ix d "user_value_1"; ix d "user_value_2"; ix d "user_value_3"; ix d "user_value_4"; ix d "exponential_window_damping_factor"] with (map (ix d) us1858).
        eapply cells_args_list; [apply ca_flt|exact R6|]. cbn. repeat split. }
      apply (writes_line _ _ (map (CE 15 7) (repeat f_zero 5))); [reflexivity|cbn [map repeat app cells_args]; repeat split|].
      apply (writes_line _ _ (dirs q)); [reflexivity|cbn [dirs cells_args app]; repeat split; auto using has_gs|].
      apply (writes_line _ _ [CS true 80 (lit "NONE")]); [reflexivity|cbn [cells_args app]; repeat split|].
      exact end_writes. }
    rewrite !cells_one. unfold type_hdr. cbn [cell_text unlines map concat app]. rewrite <- !app_assoc. reflexivity.
  - constructor; [assumption|]. unfold lines1858. constructor; [|constructor; [|repeat (constructor; [assumption|]); constructor; [|constructor]]].
    + apply (okline_cells (map (CI 10) [q_rec q; q_oct q; q_run q; 0; 0]%Z) (CI 10 0)).
      * repeat constructor.
      * do 3 (constructor; [cbn [width_ok]; apply fits_le; [lia|assumption]|]). repeat (constructor; [cbn; lia|]). constructor.
      * cbn [last_ok]. split; [lia|discriminate].
      * cbn. lia.
    + change [0; 0; 0]%Z with ([0; 0] ++ [0])%Z. rewrite app_assoc, map_app. apply okline_nums.
      * rewrite Forall_forall. intros x Hx. apply in_app_or in Hx as [Hx|[<-|[]]]; [apply in_map_iff in Hx as (y & <- & _)|]; cbn [num_cell]; lia.
      * apply Forall_app. split; [|repeat (constructor; [cbn; lia|]); constructor]. rewrite Forall_map.
        apply Forall_app. split; [|repeat (constructor; [cbn; lia|]); constructor].
        eapply Forall_impl; [|exact W4]. intros z Hz. apply fits_le; [lia|assumption].
      * cbn [last_ok]. split; [lia|discriminate].
    + apply text_ok_line. split; [apply plain_ascii; reflexivity|reflexivity].
Qed.

(** The columns of one right-aligned number before and after a boundary. *)
Lemma rjust_cut : forall w k z, length (dec_Z z) <= w -> w - k < length (dec_Z z) -> k <= w ->
  exists j t r, firstn k (rjust w (dec_Z z)) = repeat blank j ++ t /\ dec_Z z = t ++ r /\ t <> [] /\ length r = w - k.
Proof.
  intros w k z Hl Hk Hw. set (n := length (dec_Z z)) in *. unfold rjust. fold n. rewrite firstn_app, repeat_length.
  exists (w - n), (firstn (k - (w - n)) (dec_Z z)), (skipn (k - (w - n)) (dec_Z z)).
  split. { rewrite firstn_all2 by (rewrite repeat_length; lia). reflexivity. }
  split; [rewrite firstn_skipn; reflexivity|]. split.
  - intro E. apply (f_equal (@length N)) in E. rewrite firstn_length in E. fold n in E. cbn [length] in E. lia.
  - rewrite skipn_length. fold n. lia.
Qed.
Lemma not_read_back : forall w a k z, length (dec_Z z) <= 10 -> ~ fits (10 - k) z -> 1 <= 10 - k -> k <= 10 ->
  py_int (strip (rjust w (dec_Z a) ++ firstn k (rjust 10 (dec_Z z)))) <> Ok a.
Proof.
  intros w a k z Hl Hf H1 Hk H.
  destruct (Nat.le_gt_cases (length (dec_Z z)) (10 - k)) as [Hs|Hs].
  { apply Hf. apply dec_Z_length in Hs; [|assumption]. exact Hs. }
  destruct (rjust_cut 10 k z Hl Hs Hk) as (j & t & r & E & Ez & Hn & Hr). rewrite E in H.
  assert (Ht : forallb numch t = true) by (assert (X := dec_Z_numch z); rewrite Ez, forallb_app in X; apply andb_true_iff in X; tauto).
  destruct (field_glued w a j t Hn Ht H) as (_ & Hd & Hv). apply Hf. unfold fits.
  assert (X := leading_zero z t r Ez Hn Hd Hv). rewrite Hr in X.
  assert (0 < 10 ^ (Z.of_nat (10 - k) - 1))%Z by (apply Z.pow_pos_nonneg; lia). lia.
Qed.

Lemma cut2 : forall a b w1 w2 ws rest, length a = w1 -> length b = w2 -> cut_fields (a ++ b ++ rest) (w1 :: w2 :: ws) = strip a :: strip b :: cut_fields rest ws.
Proof.
  intros a b w1 w2 ws rest <- <-. cbn [cut_fields]. rewrite firstn_app_exact, skipn_app_exact by reflexivity.
  rewrite firstn_app_exact, skipn_app_exact by reflexivity. reflexivity.
Qed.
(** The first two fields of the first record. *)
Lemma rec1858_first : forall q e, wide1858 q ->
  parse_header_line (cells_text (rec1858 q) ++ [LF]) 6 [12;12;12;12;12;12] [2;2;2;-1;-1;-1]%Z ["record_num"; "octave_format"; "measurement_run"; ""; ""; ""] = Ok e ->
  exists r1 r2 r3, py_int (strip (rjust 10 (dec_Z (q_rec q)) ++ firstn 2 (rjust 10 (dec_Z (q_oct q))))) = Ok r1 /\
    py_int (strip (skipn 2 (rjust 10 (dec_Z (q_oct q))) ++ firstn 4 (rjust 10 (dec_Z (q_run q))))) = Ok r2 /\
    e = [(KS "record_num", VInt r1); (KS "octave_format", VInt r2); (KS "measurement_run", VInt r3)].
Proof.
  intros q e (W1 & W2 & W3 & _) H. apply fits_le in W1, W2, W3; try lia.
  assert (L1 := rjust_length 10 _ W1). assert (L2 := rjust_length 10 _ W2). assert (L3 := rjust_length 10 _ W3).
  unfold rec1858, cells_text in H. cbn [map concat cell_text] in H. rewrite app_nil_r in H.
  set (A := rjust 10 (dec_Z (q_rec q))) in *. set (B := rjust 10 (dec_Z (q_oct q))) in *. set (C := rjust 10 (dec_Z (q_run q))) in *.
  remember (rjust 10 (dec_Z 0)) as Z0. unfold parse_header_line in H. cbv zeta in H. rewrite cut_fields_length in H. cbn [length Nat.ltb Nat.leb orb] in H.
  match type of H with context [extend80 ?l] => destruct (extend80_app l) as [n En]; rewrite En in H end.
  set (R := skipn 4 C ++ Z0 ++ Z0 ++ Z0 ++ [LF] ++ repeat blank n).
  assert (El : ((A ++ B ++ C ++ Z0 ++ Z0 ++ Z0) ++ [LF]) ++ repeat blank n = (A ++ firstn 2 B) ++ (skipn 2 B ++ firstn 4 C) ++ R).
  { unfold R. rewrite <- !app_assoc. f_equal. rewrite <- (firstn_skipn 2 B) at 1. rewrite <- !app_assoc. do 2 f_equal.
    rewrite <- (firstn_skipn 4 C) at 1. rewrite <- !app_assoc. reflexivity. }
  rewrite El in H. rewrite cut2 in H.
  2:{ rewrite app_length, firstn_length. lia. }
  2:{ rewrite app_length, firstn_length, skipn_length. lia. }
  set (F1 := strip (A ++ firstn 2 B)) in *. set (F2 := strip (skipn 2 B ++ firstn 4 C)) in *. clearbody F1 F2. clear El.
  cbn [cut_fields combine] in H. remember (strip (firstn 12 R)) as F3. cbn [firstn skipn mandatory optional] in H. unfold field_val in H. cbn [Z.eqb Pos.eqb] in H.
  destruct (py_int F1) as [r1|]; [|cbn [rbind] in H; discriminate H]. cbn [rbind] in H.
  destruct (py_int F2) as [r2|]; [|cbn [rbind] in H; discriminate H]. cbn [rbind] in H.
  destruct (py_int F3) as [r3|]; [|cbn [rbind] in H; discriminate H]. cbn [rbind] in H.
  exists r1, r2, r3. split; [reflexivity|]. split; [reflexivity|]. injection H as <-. reflexivity.
Qed.

Lemma try_ok : forall A (r : result A) e a, try_any r e = Ok a -> r = Ok a.
Proof. intros A [x|[]] e a H; try discriminate; exact H. Qed.
Lemma header_recs_first : forall h l lines d out line, header_recs lines d (h :: l) = Ok out -> ln lines (h_line h) = Ok line ->
  exists e, parse_header_line line (h_min h) (h_widths h) (h_types h) (h_names h) = Ok e /\
    forall n, Forall (fun h => ~ In n (h_names h)) l -> dget out (KS n) = dget (dupdate d e) (KS n).
Proof.
  intros h l lines d out line H Hl. cbn [header_recs] in H. rewrite Hl in H. cbn [rbind] in H.
  destruct (parse_header_line _ _ _ _ _) as [e|x]; [|discriminate]. exists e. split; [reflexivity|]. intros n Hn.
  eapply header_recs_other; eassumption.
Qed.
Ltac names_apart := repeat (apply Forall_cons; [cbn; intuition discriminate|]); apply Forall_nil.
(** The set is always written; with an octave format of more than 8 or a
    measurement run of more than 6 characters it cannot be read, or the record
    number or the octave format read is another one. *)
Theorem C40_all_refuted : forall c m fd ho d q, repr1858 d q -> wide1858 q -> ~ (fits 8 (q_oct q) /\ fits 6 (q_run q)) ->
  exists r, returns c m fd ho d r /\
    forall out, r = Ok out -> dget out (KS "record_num") <> Some (VInt (q_rec q)) \/ dget out (KS "octave_format") <> Some (VInt (q_oct q)).
Proof.
  intros c m fd ho d q R W Hf. destruct (written1858 c m fd d q R W) as (Hw & Hok & Ht).
  destruct (text_returns c m fd ho d 1858 _ _ Hw Hok Ht) as (block & Hb & Hr). eexists. split; [exact Hr|].
  intros out H. unfold extract_set in H. rewrite Hb in H. cbn [Z.eqb Pos.eqb] in H. unfold extract1858 in H. apply try_ok in H.
  rewrite split_text in H by assumption. cbv beta iota zeta in H. unfold recs1858 in H.
  apply (header_recs_first _ _ _ _ _ (cells_text (rec1858 q) ++ [LF])) in H as (e & E & G); [|reflexivity].
  unfold DsHeaders.H in E. cbn [h_min h_widths h_types h_names] in E. destruct (rec1858_first q e W E) as (r1 & r2 & r3 & P1 & P2 & ->).
  rewrite (G "record_num"), (G "octave_format") by names_apart.
  change (dget (dupdate _ _) (KS "record_num")) with (Some (VInt r1)). change (dget (dupdate _ _) (KS "octave_format")) with (Some (VInt r2)).
  assert (W' := W). destruct W' as (_ & W2 & W3 & _). assert (L2 := fits_le 10 _ ltac:(lia) W2). assert (L3 := fits_le 10 _ ltac:(lia) W3).
  destruct (le_dec (length (dec_Z (q_oct q))) 8) as [S|S].
  - right. intro X. injection X as ->.
    change 10 with (2 + 8) in P2 at 1. rewrite (rjust_split 8 2) in P2 by assumption. rewrite skipn_app_exact in P2 by reflexivity.
    revert P2. apply (not_read_back 8 (q_oct q) 4 (q_run q)); [assumption| |lia|lia]. intro F. apply Hf. split; [|exact F]. apply dec_Z_length in S; [exact S|lia].
  - left. intro X. injection X as ->. revert P1. apply (not_read_back 10 (q_rec q) 2 (q_oct q)); [assumption| |lia|lia]. intro F. apply S, fits_le; [lia|exact F].
Qed.
Print Assumptions C40_all_refuted.
(** Together with C39: exactly the sets with at most 8 and 6 characters come back. *)
Theorem C40_exact : forall c m fd ho d q, repr1858 d q -> wide1858 q -> (round_trips c m fd ho d (read1858 q) <-> fits 8 (q_oct q) /\ fits 6 (q_run q)).
Proof.
  intros c m fd ho d q R W. split.
  - intro T. assert (Dec : (fits 8 (q_oct q) /\ fits 6 (q_run q)) \/ ~ (fits 8 (q_oct q) /\ fits 6 (q_run q))).
    { unfold fits. destruct (Z_lt_dec (- 10 ^ (Z.of_nat 8 - 1)) (q_oct q)), (Z_lt_dec (q_oct q) (10 ^ Z.of_nat 8)), (Z_lt_dec (- 10 ^ (Z.of_nat 6 - 1)) (q_run q)), (Z_lt_dec (q_run q) (10 ^ Z.of_nat 6)); tauto. }
    destruct Dec as [Y|Y]; [exact Y|exfalso]. destruct (C40_all_refuted c m fd ho d q R W Y) as (r & Hr & Hx).
    assert (A : appendable (kept m None)) by (destruct m; apply appendable_nil).
    destruct (T None uff0 A) as (new & u0 & u' & E0 & Ew & _ & Er & _). destruct (Hr None uff0 A) as (new2 & u2 & u3 & E2 & Ew2 & _ & Er2).
    rewrite E2 in E0. injection E0 as ->. rewrite Ew2 in Ew. injection Ew as En Eu.
    apply app_inv_head in En. subst new2 u3. rewrite Er2 in Er. destruct r as [out|x]; [|destruct x; discriminate]. cbn [try_any rbind] in Er. injection Er as ->.
    destruct (Hx _ eq_refl) as [N|N]; apply N; reflexivity.
  - intros [F1 F2]. apply C39_round_trip_1858; [assumption|]. destruct W as (W1 & _ & _ & W). unfold wf1858. auto.
Qed.
Print Assumptions C40_exact.
Definition d1858_wide : dict := Eval vm_compute in d1858_of 1234567890 1234567.
Definition q1858_wide : qual := Eval vm_compute in
  {| q_rec := 1234567890; q_oct := 1234567890; q_run := 1234567; q_ints := q_ints q1858; q_z := q_z q1858; q_user := q_user q1858; q_resp := q_resp q1858; q_ref := q_ref q1858 |}.
Example C40_example : repr1858 d1858_wide q1858_wide /\ wide1858 q1858_wide /\ ~ fits 8 (q_oct q1858_wide) /\ ~ fits 6 (q_run q1858_wide).
Proof.
  split; [|split; [|split; intros [_ X]; discriminate X]].
  - unfold repr1858. do 5 (split; [wit1|]). cbn [keys1858 zs1858 us1858 q_ints q_z q_user q1858_wide].
    do 3 (split; [repeat (constructor; [wit_has|]); constructor|]). wit.
  - unfold wide1858, q1858_wide, short_plain. cbn [q_rec q_oct q_run q_ints q_z q_user q_resp q_ref].
    do 3 (split; [wit1|]). do 3 (split; [wit|]). split; [split; [apply plain_ascii; reflexivity|cbn; lia]|].
    split; [split; [apply plain_ascii; reflexivity|cbn; lia]|discriminate].
Qed.
(* ------------------------------------------------------------------ *)
(** C26, for all sets: complex values at nodes given with r4, r5 and r6. *)

(** Like [repr55] for complex data, but r4, r5 and r6 are present (with any value). *)
Definition repr55_six (d : dict) (r : data55) : Prop :=
  v_kind r = Cplx3 /\
  dget d (KS "type") = Some (VInt 55) /\ dget d (KS "data") = None /\
  Forall2 (fun k s => has_or as_txt d k s (lit "NONE")) id_keys (v_ids r) /\
  has_or as_int d "model_type" (v_model r) 1%Z /\ has is_num d "analysis_type" (analysis (v_modes r)) /\
  has as_int d "data_ch" (v_ch r) /\ has as_int d "spec_data_type" (v_spec r) /\
  repr_modes d (v_modes r) /\ has (seq_of as_int) d "node_nums" (map fst (v_rows r)) /\
  has cplx_col d "r1" (colc 0 (v_rows r)) /\ has (seq_of as_cplx) d "r2" (colc 1 (v_rows r)) /\ has (seq_of as_cplx) d "r3" (colc 2 (v_rows r)) /\
  dmem d (KS "r4") = true /\ dmem d (KS "r5") = true /\ dmem d (KS "r6") = true.

Lemma node_six : forall d rows i w, has (seq_of as_int) d "node_nums" (map fst rows) ->
  has cplx_col d "r1" (colc 0 rows) -> has (seq_of as_cplx) d "r2" (colc 1 rows) -> has (seq_of as_cplx) d "r3" (colc 2 rows) -> nth_error rows i = Some w ->
  length (snd w) = 6 -> writes (node55 d true true (Z.of_nat i)) (unlines (row_lines w)).
Proof.
  intros d rows i [z l] Hn R1 R2 R3 Hi Hl. cbn [snd] in Hl. unfold node55, row_lines. cbn [fst snd].
  assert (Gz : gi (at_ (ix d "node_nums") (Z.of_nat i)) z) by (apply (has_gi_at _ _ _ _ _ Hn); exact (map_nth_error fst i rows Hi)).
  eapply writes_eq.
  { apply (writes_line _ _ [CI 10 z]); [reflexivity|cbn [cells_args app]; auto|].
    apply cplx_col_seq in R1. destruct l as [|a [|b [|c [|e [|f [|g [|? ?]]]]]]]; try discriminate.
    destruct (has_gre_at _ _ _ _ _ R1 (nth_colc 0 _ _ _ Hi)) as [A1 A2]. destruct (has_gre_at _ _ _ _ _ R2 (nth_colc 1 _ _ _ Hi)) as [A3 A4].
    destruct (has_gre_at _ _ _ _ _ R3 (nth_colc 2 _ _ _ Hi)) as [A5 A6].
    apply (writes_line _ _ (fcells [a; b; c; e; f; g]) _ []); [reflexivity| |constructor]. cbn [fcells map cells_args app]. auto 10. }
  rewrite !unlines_cons'. reflexivity.
Qed.
Definition head55_six (r : data55) : list cell := map (CI 10) [v_model r; analysis (v_modes r); v_ch r; v_spec r; 5; 6]%Z.
Definition lines55_six (r : data55) : list str :=
  map (ljust 80) (v_ids r) ++ [cells_text (head55_six r); cells_text (rec7 (v_modes r)); cells_text (fcells (rec8 (v_modes r)))] ++
  flat_map row_lines (v_rows r).
Lemma wf_head55_six : forall r, wf55 r -> Forall width_ok (head55_six r) /\ okline (cells_text (head55_six r)).
Proof.
  intros r (_ & H & _ & _). inversion H as [|? ? H1 H']; subst. inversion H' as [|? ? H2 H'']; subst. inversion H'' as [|? ? H3 _]; subst.
  apply (ints_ok [v_model r; analysis (v_modes r); v_ch r; v_spec r; 5]%Z 6).
  - assert (A := analysis_small (v_modes r)). repeat (constructor; [first [assumption|apply fits10_small; lia]|]). constructor.
  - discriminate.
Qed.

(** Every such set is written and cannot be read, whatever the values. *)
Theorem C26_all_refuted : forall c m fd ho d r, repr55_six d r -> wf55 r -> returns c m fd ho d (Err (read_error "55")).
Proof.
  intros c m fd ho d r (Ek & Hty & Hdat & R1 & R2 & R3 & R4 & R5 & R6 & R7 & X1 & X2 & X3 & P4 & P5 & P6) Hw.
  destruct (type_hdr_ok 55 ltac:(lia)) as [Ht Hh]. destruct (wf_head55_six r Hw) as [Wh Oh].
  destruct (wf_modes_lines (v_modes r) (proj1 (proj2 (proj2 Hw)))) as [[W7 O7] [W8 O8]].
  assert (Hrows : Forall okline (flat_map row_lines (v_rows r))).
  { rewrite Forall_forall. intros x Hx. apply in_flat_map in Hx as (w & Hin & Hx). assert (O := row_lines_ok r w Hw Hin). rewrite Forall_forall in O. auto. }
  assert (Hok : Forall okline (type_hdr 55 :: lines55_six r)).
  { constructor; [assumption|]. unfold lines55_six. apply Forall_app. split.
    - rewrite Forall_map. eapply Forall_impl; [|exact (proj1 Hw)]. intros s Hs. apply text_ok_line. assumption.
    - repeat (constructor; [assumption|]). assumption. }
  destruct (text_returns c m fd ho d 55 (type_hdr 55) (lines55_six r)) as (block & Hb & Hr); [|assumption|assumption|].
  - rewrite (set_items_text c m fd d (VInt 55) Hty Hdat). change (write_dispatch c m fd (VInt 55) d) with (write55 d). unfold write55.
    destruct (prep55_ok d (v_modes r) R3 R6) as (d1 & -> & G & Gc).
    apply (has_view _ _ _ _ _ _ _ G) in X1; [|reflexivity]. apply (has_view _ _ _ _ _ _ _ G) in X2; [|reflexivity]. apply (has_view _ _ _ _ _ _ _ G) in X3; [|reflexivity].
    assert (Ec : (do v <- ix d1 "r1" ;; np_iscomplex v) = Ok true) by (destruct (has_get _ _ _ _ _ X1) as (v & -> & Hc & _); exact Hc).
    assert (Es : dmem d1 (KS "r4") && dmem d1 (KS "r5") && dmem d1 (KS "r6") = true).
    { unfold dmem in *. rewrite !G by reflexivity. destruct (dget d (KS "r4")), (dget d (KS "r5")), (dget d (KS "r6")); try discriminate. reflexivity. }
    cbn [wp_items]. rewrite Ec, Es.
    apply (has_view _ _ _ _ _ _ _ G) in R7; [|reflexivity].
    assert (HL := has_len _ _ _ _ _ R7). rewrite HL. rewrite map_length.
    rewrite hdr_writes. eapply writes_eq.
    { apply writes_consr; [reflexivity|]. apply (ids_writes d1 id_keys (v_ids r)).
      { apply forall2_5 in R1 as (v & w & x & y & z & -> & P1' & P2' & P3' & P4' & P5'). repeat constructor;
        (eapply has_view_or; [exact G|reflexivity|eassumption|reflexivity|reflexivity]). }
      apply (writes_line _ _ (head55_six r)); [reflexivity| |].
      { cbn [head55_six map cells_args app].
        split; [apply has_gi; eapply has_view_or; [exact G|reflexivity|eassumption|reflexivity|reflexivity]|].
        split; [apply has_gi; apply (has_view _ _ _ _ _ _ _ G) in R3 as (v & E & Hv & _); [exists v; auto|reflexivity]|].
        split; [apply has_gi; eapply has_view; [exact G|reflexivity|assumption]|].
        split; [apply has_gi; eapply has_view; [exact G|reflexivity|assumption]|].
        repeat split. }
      apply (modes_writes d d1 (v_modes r)); [assumption|assumption|assumption|].
      apply writes_app; [|exact end_writes]. apply (writes_rows _ _ row_lines). intros i w Hi.
      eapply node_six; [exact R7|exact X1|exact X2|exact X3|exact Hi|]. 
      destruct (wf_row r w Hw ltac:(eapply nth_error_In; exact Hi)) as (_ & Hl & _). rewrite Ek in Hl. exact Hl. }
    unfold lines55_six, type_hdr. rewrite unlines_cons', unlines_app. cbn [app]. rewrite !unlines_cons'. rewrite <- !app_assoc. reflexivity.
  - enough (E : extract_set 55 block ho = Err (read_error "55")) by (rewrite E in Hr; exact Hr).
    unfold extract_set. rewrite Hb. cbn [Z.eqb Pos.eqb]. unfold extract55.
    rewrite split_text by assumption. cbv beta iota zeta.
    apply forall2_5 in R1 as (v & w & x & y & z & Ei & _). unfold lines55_six. rewrite Ei.
    set (rl := flat_map row_lines (v_rows r)) in *. unfold H. cbn [map app].
    cbn [header_recs h_line h_min h_widths h_types h_names]. cbn [ln nth_error of_option rbind]. rewrite !header_str80. cbn [rbind].
    hdr_cells (head55_six r) (@nil nat) (map (fun z => Some (VInt z)) [v_model r; analysis (v_modes r); v_ch r; v_spec r; 5; 6]%Z) Wh.
    match goal with |- context [read7_8 ?ll ?dd] => change dd with (pre55 (VStr (strip (firstn 80 v))) (VStr (strip (firstn 80 w))) (VStr (strip (firstn 80 x)))
      (VStr (strip (firstn 80 y))) (VStr (strip (firstn 80 z))) (v_model r) (analysis (v_modes r)) (v_ch r) (v_spec r) 5 6);
      rewrite (modes_read (v_modes r) ll) by (reflexivity || apply Hw) end.
    cbn [rbind skipn].
    assert (Eb : splitlines_str true (join (map (fun l : list N => l ++ [LF]) rl)) =
      flat_map (fun w => [cells_text [CI 10 (fst w)] ++ [LF]; cells_text (fcells (snd w)) ++ [LF]]) (v_rows r)).
    { assert (Ej : join (map (fun l : list N => l ++ [LF]) rl) = unlines rl).
      { unfold unlines, join. reflexivity. }
      rewrite Ej. unfold splitlines_str. rewrite splitlines_unlines; [|reflexivity|rewrite forallb_forall; intros q Hq; rewrite Forall_forall in Hrows; apply Hrows; assumption].
      unfold rl. rewrite !flat_map_concat_map, concat_map, map_map. reflexivity. }
    rewrite Eb.
    rewrite (every_table1 _ _ _ 0 2 (fun w => cells_text [CI 10 (fst w)] ++ [LF])) by (lia || (intro; split; reflexivity)).
    rewrite (every_table1 _ _ _ 1 2 (fun w => cells_text (fcells (snd w)) ++ [LF])) by (lia || (intro; split; reflexivity)).
    assert (Hrr : Forall (fun w => Forall okf (snd w) /\ length (snd w) = row_len (v_kind r)) (v_rows r)).
    { rewrite Forall_forall. intros q Hq. destruct (wf_row r q Hw Hq) as (Q1 & Q2 & _). auto. }
    rewrite node_ints. cbn [rbind]. match goal with |- context [np_rows ?t] => replace (np_rows t) with (Ok (flat_map (fun w => map r6f (snd w)) (v_rows r))) by (symmetry; exact (np_rows_ok _ _ Hrr)) end. cbn [rbind].
    match goal with |- context [ix ?dd "data_type"] => change (ix dd "data_type") with (@Ok pyval (VInt 5)); change (ix dd "n_data_per_node") with (@Ok pyval (VInt 6)) end.
    reflexivity.
Qed.
Print Assumptions C26_all_refuted.

Definition r55_six : data55 := Eval vm_compute in
  {| v_ids := repeat (lit "NONE") 5; v_model := 1; v_ch := 3; v_spec := 8; v_modes := Response 1 3 (fl "1.25"); v_kind := Cplx3;
     v_rows := [(9, [fl "1"; fl "1"; fl "2"; fl "1"; fl "3"; fl "1"])]%Z |}.
Example C26_example : repr55_six d55_six r55_six /\ wf55 r55_six.
Proof.
  split.
  - unfold repr55_six, d55_six, r55_six. cbn [v_ids v_model v_ch v_spec v_modes v_kind v_rows repr_modes id_keys analysis].
    do 3 (split; [reflexivity|]). split; [repeat (constructor; [wit1|]); constructor|]. split; [wit1|].
    split; [eexists; split; [vm_compute; reflexivity|]; split; [vm_compute; reflexivity|]; reflexivity|]. split; [wit1|]. split; [wit1|].
    split; [wit|]. split; [wit|]. split; [wit_col|]. split; [wit_col|]. split; [wit_col|]. repeat split.
  - unfold wf55, r55_six. cbn [v_ids v_model v_ch v_spec v_modes v_kind v_rows wf_modes row_len]. unfold okfin, okf. wit.
Qed.
(* ------------------------------------------------------------------ *)
(** C35, for all node lists: which nodes are in the file. *)

(** Like [repr82], for any nodes: neighbours may be equal. *)
Definition repr82_any (d : dict) (t : trace) (dt : dtype) (vs : list pyval) : Prop :=
  dget d (KS "type") = Some (VInt 82) /\ dget d (KS "data") = None /\
  has as_int d "trace_num" (t_num t) /\
  has_or as_int d "color" (t_color t) 0%Z /\ has_or as_txt d "id" (t_id t) (lit "NONE") /\
  dget d (KS "nodes") = Some (VArr dt vs) /\ (dt = DInt \/ dt = DFloat) /\ Forall2 as_int vs (t_nodes t).
Definition wf82_any (t : trace) : Prop :=
  fits 10 (t_num t) /\ fits 10 (t_color t) /\ t_color t <> (-1)%Z /\ text_ok (t_id t) /\
  fits 10 (Z.of_nat (S (length (t_nodes t)))) /\ Forall (fun z => fits 9 z /\ z <> (-1)%Z) (t_nodes t).
(** [n] is the number of nodes the writer counts: one more than there are
    neighbours that differ. *)
Definition kept82 (n : nat) (l : list Z) : list Z := if Nat.eqb (n mod 8) 0 then firstn n l else l.
Definition read82_any (n : nat) (t : trace) : dict :=
  [(KS "type", VInt 82); (KS "trace_num", VInt (t_num t)); (KS "n_nodes", VInt (Z.of_nat n));
   (KS "color", VInt (t_color t)); (KS "id", VStr (strip (firstn 80 (t_id t))));
   (KS "nodes", vfloats (map float_of_Z (kept82 n (t_nodes t))))].

Lemma changes_le : forall l, changes l + 1 <= Nat.max 1 (length l).
Proof.
  induction l as [|a l IH]; [cbn; lia|]. destruct l as [|b l]; [cbn; lia|].
  change (changes (a :: b :: l)) with ((if differ b a then 1 else 0) + changes (b :: l)). cbn [length] in *. destruct (differ b a); lia.
Qed.
Definition rows82 (n : nat) (l : list Z) : list (list Z) := take_rows 8 (n / 8) l ++ (if Nat.ltb 0 (n mod 8) then [skipn (8 * (n / 8)) l] else []).
Lemma rows82_concat : forall n l, n <= Nat.max 1 (length l) -> concat (rows82 n l) = kept82 n l.
Proof.
  intros n l Hn. unfold rows82, kept82. rewrite concat_app.
  assert (Hd := Nat.div_mod n 8 ltac:(lia)).
  destruct (take_rows_spec _ 8 (n / 8) l) as [E _]. { destruct (length l); [|lia]. destruct n as [|[|]]; cbn in *; lia. }
  rewrite E. destruct (n mod 8) as [|k] eqn:Ek; cbn [Nat.ltb Nat.leb Nat.eqb concat].
  - rewrite app_nil_r. f_equal. lia.
  - rewrite app_nil_r. apply firstn_skipn.
Qed.
Definition head82_any (n : nat) (t : trace) : list cell := [CI 10 (t_num t); CI 10 (Z.of_nat n); CI 10 (t_color t)].
Definition lines82_any (n : nat) (t : trace) : list str := cells_text (head82_any n t) :: ljust 80 (t_id t) :: map row82 (rows82 n (t_nodes t)).
Lemma row82_any_ok : forall r, Forall (fun z => fits 9 z /\ z <> (-1)%Z) r -> okline (row82 r) /\ split (row82 r) = map dec_Z r.
Proof.
  intros r Hall.
  assert (Hs : Forall spaced_cell (map (CI 10) r)).
  { rewrite Forall_map. eapply Forall_impl; [|exact Hall]. intros z [Hz _]. cbn [spaced_cell]. eapply fits_lt with (k := 9); [lia|lia|assumption]. }
  split.
  - destruct r as [|r0 r']; [split; [reflexivity|split; [reflexivity|constructor]]|].
    destruct (exists_last (l := r0 :: r')) as (q & z & E); [discriminate|]. rewrite E in *. clear E.
    unfold row82. rewrite map_app. cbn [map]. apply okline_nums.
    + change ([CI 10 z]) with (map (CI 10) [z]). rewrite <- map_app. rewrite Forall_map. apply Forall_forall. intros x _. cbn [num_cell]. lia.
    + change ([CI 10 z]) with (map (CI 10) [z]). rewrite <- map_app. eapply Forall_impl; [|exact Hs]. exact spaced_width.
    + cbn [last_ok]. apply Forall_app in Hall as [_ Hz]. inversion Hz; subst. split; [lia|tauto].
  - unfold row82. rewrite split_cells by assumption. rewrite map_map. reflexivity.
Qed.
Lemma rows82_all : forall P n l, n <= Nat.max 1 (length l) -> Forall P l -> Forall (Forall P) (rows82 n l).
Proof.
  intros P n l Hn H. rewrite Forall_forall. intros r Hr. rewrite Forall_forall. intros z Hz.
  assert (Hin : In z (concat (rows82 n l))) by (apply in_concat; eauto). rewrite rows82_concat in Hin by assumption.
  rewrite Forall_forall in H. apply H. unfold kept82 in Hin. destruct (Nat.eqb _ _); [|assumption].
  rewrite <- (firstn_skipn n l). apply in_or_app. auto.
Qed.

Lemma set82_any : forall c m fd ho d t dt vs, repr82_any d t dt vs -> wf82_any t ->
  text_set c m fd ho d 82 (type_hdr 82) (lines82_any (changes vs + 1) t) (read82_any (changes vs + 1) t).
Proof.
  intros c m fd ho d t dt vs (Hty & Hdat & Hnum & Hcol & Hid & Hnodes & Hdt & H2) (W1 & W2 & W3 & W4 & W6 & W7).
  destruct (type_hdr_ok 82 ltac:(lia)) as [Ht Hh]. assert (Hlen := Forall2_len _ _ _ _ _ H2).
  assert (Hn := changes_le vs). rewrite Hlen in Hn. set (n := changes vs + 1) in *.
  assert (Wn : fits 10 (Z.of_nat n)). { unfold fits in *. lia. }
  assert (Wh : Forall width_ok (head82_any n t)). { repeat (constructor; [cbn [width_ok]; apply fits_le; [lia|assumption]|]). constructor. }
  assert (Hrows := rows82_all _ n _ Hn W7).
  assert (Hok : Forall okline (type_hdr 82 :: lines82_any n t)).
  { constructor; [assumption|]. unfold lines82_any. constructor; [|constructor; [apply text_ok_line; assumption|]].
    - apply (okline_cells [CI 10 (t_num t); CI 10 (Z.of_nat n)] (CI 10 (t_color t))).
      + repeat constructor.
      + exact Wh.
      + cbn [last_ok]. split; [lia|assumption].
      + cbn. lia.
    - rewrite Forall_map. eapply Forall_impl; [|exact Hrows]. intros r Hr. apply row82_any_ok. assumption. }
  constructor; [|assumption|assumption|].
  - rewrite (set_items_text c m fd d (VInt 82) Hty Hdat). change (write_dispatch c m fd (VInt 82) d) with (write82 d). unfold write82.
    cbn [wp_items]. set (d1 := opt_fields d _).
    assert (Hn1 : ix d1 "nodes" = Ok (VArr dt vs)). { unfold ix, d1. rewrite opt_fields_get, Hnodes. reflexivity. }
    assert (Hc : has as_int d1 "color" (t_color t)) by (eapply has_opt_or; [exact Hcol|reflexivity|reflexivity]).
    assert (Hi : has as_txt d1 "id" (t_id t)) by (eapply has_opt_or; [exact Hid|reflexivity|reflexivity]).
    assert (Hk : has as_int d1 "trace_num" (t_num t)) by (apply has_opt; assumption).
    rewrite Hn1. fold n.
    set (r8 := rows8 (n / 8) vs).
    set (tl := if Nat.ltb 0 (n mod 8) then [row10 (skipn (8 * (n / 8)) vs)] else []).
    assert (G : writes (hdr_lines 82 :: txt "%10i%10i%10i\n" [ix d1 "trace_num"; I (Z.of_nat n); ix d1 "color"]
       :: txt "%-80s\n" [ix d1 "id"] :: r8 ++ tl ++ [end_line]) (TLINE ++ unlines (type_hdr 82 :: lines82_any n t) ++ TLINE)).
    { rewrite hdr_writes. unfold lines82_any. rewrite !unlines_cons'.
      eapply writes_eq.
      { apply writes_consr; [reflexivity|].
        apply (writes_line _ _ (head82_any n t)); [reflexivity| |].
        { cbn [head82_any cells_args app]. repeat split; [apply has_gi; assumption|apply has_gi; assumption]. }
        apply (writes_line _ _ [CS true 80 (t_id t)]); [reflexivity| |].
        { cbn [cells_args app]. split; [apply has_gs; assumption|exact Logic.I]. }
        apply writes_app; [apply (rows8_ok _ vs (t_nodes t)); assumption|].
        apply writes_app; [|exact end_writes].
        instantiate (1 := unlines (map row82 (if Nat.ltb 0 (n mod 8) then [skipn (8 * (n / 8)) (t_nodes t)] else []))).
        unfold tl. destruct (Nat.ltb 0 (n mod 8)); [|constructor]. cbn [map]. rewrite unlines_one.
        rewrite (row10_ok _ (skipn (8 * (n / 8)) (t_nodes t))) by (apply Forall2_skipn; assumption). apply writes_one. reflexivity. }
      unfold rows82. rewrite map_app, unlines_app. unfold type_hdr. unfold cells_text at 2. cbn [map concat cell_text]. rewrite app_nil_r.
      rewrite <- !app_assoc. reflexivity. }
    destruct Hdt as [-> | ->]; exact G.
  - intros block _ Hb. unfold extract_set. rewrite Hb. cbn [Z.eqb Pos.eqb]. unfold extract82.
    rewrite split_text by assumption. unfold lines82_any. cbn [map ln nth_error of_option rbind skipn].
    hdr_cells (head82_any n t) (@nil nat) [Some (VInt (t_num t)); Some (VInt (Z.of_nat n)); Some (VInt (t_color t))] Wh.
    cbn [rbind]. rewrite header_str80. cbn [rbind].
    change (join (map (fun l => l ++ [LF]) (map row82 (rows82 n (t_nodes t))))) with (unlines (map row82 (rows82 n (t_nodes t)))).
    rewrite split_unlines.
    assert (Ef : flat_map split (map row82 (rows82 n (t_nodes t))) = map dec_Z (kept82 n (t_nodes t))).
    { rewrite flat_map_concat_map, map_map. rewrite <- rows82_concat by assumption. rewrite concat_map. f_equal.
      apply map_ext_in. intros r Hr. rewrite Forall_forall in Hrows. apply row82_any_ok. apply Hrows. assumption. }
    rewrite Ef. assert (Ep : parse_floats (map dec_Z (kept82 n (t_nodes t))) = Ok (map float_of_Z (kept82 n (t_nodes t)))).
    { unfold parse_floats, rmap. rewrite map_map. apply rseq_map_ok. intros z _. apply py_float_dec. }
    rewrite Ep. reflexivity.
Qed.
(** What every list of nodes comes back as. *)
Theorem C35_exact : forall c m fd ho d t dt vs, repr82_any d t dt vs -> wf82_any t -> round_trips c m fd ho d (read82_any (changes vs + 1) t).
Proof. intros. eapply text_set_round, set82_any; eassumption. Qed.
Print Assumptions C35_exact.
(** The last nodes are lost exactly if some neighbours are equal and the count is a
    multiple of eight. *)
Lemma kept82_iff : forall n l, n <= Nat.max 1 (length l) -> (kept82 n l = l <-> n mod 8 <> 0 \/ n = length l).
Proof.
  intros n l Hn. unfold kept82. destruct (Nat.eqb_spec (n mod 8) 0) as [E|E]; [|tauto]. split.
  - intro H. right. assert (Hl : length (firstn n l) = length l) by (rewrite H; reflexivity). rewrite firstn_length in Hl.
    destruct (length l) eqn:El; [|lia]. destruct n as [|[|]]; cbn in *; lia.
  - intros [H| ->]; [contradiction|]. apply firstn_all.
Qed.
(** For an array of integers: the number of places where the neighbours differ. *)
Fixpoint moves (l : list Z) : nat := match l with a :: (b :: _) as r => (if Z.eq_dec a b then 0 else 1) + moves r | _ => 0 end.
Lemma changes_int : forall l, changes (map VInt l) = moves l.
Proof.
  induction l as [|a l IH]; [reflexivity|]. destruct l as [|b l]; [reflexivity|]. cbn [map] in *.
  change (changes (VInt a :: VInt b :: map VInt l)) with ((if negb (b =? a)%Z then 1 else 0) + changes (VInt b :: map VInt l)). rewrite IH.
  change (moves (a :: b :: l)) with ((if Z.eq_dec a b then 0 else 1) + moves (b :: l)). f_equal.
  destruct (Z.eqb_spec b a), (Z.eq_dec a b); cbn; congruence.
Qed.
Theorem C35_iff : forall c m fd ho d t l, repr82_any d t DInt (map VInt l) -> wf82_any t ->
  exists out kept, round_trips c m fd ho d out /\ dget out (KS "nodes") = Some (vfloats (map float_of_Z kept)) /\
    (kept = l <-> (moves l + 1) mod 8 <> 0 \/ moves l + 1 = length l).
Proof.
  intros c m fd ho d t l R W. assert (E : t_nodes t = l).
  { destruct R as (_ & _ & _ & _ & _ & _ & _ & H2). revert H2. generalize (t_nodes t). induction l as [|a l IH]; intros zs H2; inversion H2 as [|? b ? zs' Hb H2']; subst; [reflexivity|].
    f_equal; [|apply IH; assumption]. injection Hb as ->. reflexivity. }
  exists (read82_any (changes (map VInt l) + 1) t), (kept82 (changes (map VInt l) + 1) (t_nodes t)). split; [eapply C35_exact; eassumption|]. split; [reflexivity|].
  rewrite changes_int, E. apply kept82_iff. assert (H := changes_le (map VInt l)). rewrite changes_int, map_length in H. assumption.
Qed.
Print Assumptions C35_iff.
Definition t82r : trace := {| t_num := 1; t_color := 0; t_id := lit "NONE"; t_nodes := [1; 2; 2; 3; 4; 5; 6; 7; 8]%Z |}.
Example C35_example : repr82_any d82r t82r DInt (map VInt (t_nodes t82r)) /\ wf82_any t82r /\ (moves (t_nodes t82r) + 1) mod 8 = 0 /\ moves (t_nodes t82r) + 1 <> length (t_nodes t82r).
Proof.
  split.
  - unfold repr82_any. do 5 (split; [wit1|]). split; [reflexivity|]. split; [left; reflexivity|]. repeat constructor.
  - split; [unfold wf82_any; cbn [t_num t_color t_id t_nodes t82r length]; wit|]. split; [reflexivity|discriminate].
Qed.
(* ------------------------------------------------------------------ *)
(** C44, for all sets: no set with a rod of two nodes can be read again. *)

(** Like [wf_elem], for elements of any type. *)
Definition wf_any (e : elem) : Prop :=
  fits 10 (e_num e) /\ Forall (fits 9) [e_desc e; e_phys e; e_mat e; e_color e; e_count e] /\ e_count e <> (-1)%Z /\
  (e_desc e = 11%Z -> let '(a, b, c) := e_beam e in Forall (fits 9) [a; b; c] /\ c <> (-1)%Z) /\
  Forall (fun z => fits 9 z /\ z <> (-1)%Z) (e_nodes e).
Definition lines_any (e : elem) : list str :=
  zline (attrs e) :: (if (e_desc e =? 11)%Z then [zline (beams e)] else []) ++ [zline (e_nodes e)].
Lemma lines_any_ok : forall e, wf_any e -> Forall okline (lines_any e).
Proof.
  intros e (W1 & W2 & W3 & W5 & W6). unfold lines_any. constructor.
  - apply zline_ok; [assumption|assumption|]. exact W3.
  - apply Forall_app. split; [|constructor; [apply zline_ok'; assumption|constructor]].
    destruct (Z.eqb_spec (e_desc e) 11); [|constructor]. specialize (W5 e0). unfold beams. destruct (e_beam e) as [[a b] c]. destruct W5 as [W5 W7].
    constructor; [|constructor]. inversion W5; subst. apply zline_ok; [apply fits_9_10; assumption|assumption|exact W7].
Qed.
Lemma any_writes : forall v e rest t, repr_elem v e -> writes rest t -> writes (elem2412 v ++ rest) (unlines (lines_any e) ++ t).
Proof.
  intros v e rest t (d & -> & R1 & R2 & R3 & R4 & R5 & R6 & R7 & R8) Hr. unfold elem2412.
  destruct (vix_has _ _ _ _ _ R2) as (fd & E2 & Hfd & Hq). rewrite E2, Hq.
  destruct (vix_has _ _ _ _ _ R7) as (nv & E7 & ns & En & H2). rewrite E7. cbn [rbind]. rewrite En.
  unfold lines_any. rewrite unlines_cons', unlines_app. cbn [app]. rewrite <- (app_assoc (zline (attrs e) ++ [LF])), <- app_assoc. rewrite <- (app_assoc _ _ t).
  apply (writes_line _ _ (map (CI 10) (attrs e))); [reflexivity| |].
  { cbn [attrs map cells_args app]. rewrite E2. repeat split; auto using has_gi.
    - apply (has_gi d "element_nums"). assumption.
    - apply (has_gi d "phys_table"). assumption.
    - apply (has_gi d "mat_table"). assumption.
    - apply (has_gi d "color"). assumption.
    - apply (has_gi d "num_nodes"). assumption. }
  assert (Tail : writes ((map (fun n => txt "%10i" [Ok n]) ns ++ [txt "\n" []]) ++ rest) (unlines [zline (e_nodes e)] ++ t)).
  { rewrite <- app_assoc. rewrite unlines_one, <- app_assoc. apply writes_cells; [assumption|]. cbn [app].
    apply (writes_line "\n" [] []); [reflexivity|cbn; exact Logic.I|assumption]. }
  destruct (Z.eqb_spec (e_desc e) 11) as [Eb|]; [|exact Tail]. assert (Hb : is_beam e = true) by (unfold is_beam; rewrite Eb; reflexivity).
  specialize (R8 Hb). unfold beams. destruct (e_beam e) as [[a b] c]. destruct R8 as (B1 & B2 & B3).
  cbn [app]. rewrite unlines_one. apply (writes_line _ _ (map (CI 10) [a; b; c])); [reflexivity| |exact Tail].
  cbn [map cells_args app]. repeat split.
  - apply (has_gi d "beam_orientation"). assumption.
  - apply (has_gi d "beam_foreend_cross"). assumption.
  - apply (has_gi d "beam_aftend_cross"). assumption.
Qed.
Lemma anys_write : forall vs es rest t, Forall2 repr_elem vs es -> writes rest t -> writes (flat_map elem2412 vs ++ rest) (unlines (flat_map lines_any es) ++ t).
Proof.
  intros vs es rest t H Hr. induction H as [|v e vs es Hv _ IH]; [assumption|]. cbn [flat_map]. rewrite unlines_app, <- !app_assoc. apply any_writes; auto.
Qed.
Lemma entries_any : forall d l rest t, elems_of d l -> writes rest t -> writes (flat_map entry2412 d ++ rest) (unlines (flat_map lines_any l) ++ t).
Proof.
  induction d as [|[[s|k] v] d IH]; intros l rest t H Hr; cbn [elems_of] in H.
  - subst. assumption.
  - cbn [flat_map entry2412 fst app]. apply IH; assumption.
  - destruct H as (a & b & -> & (vs & Hv & H2) & Hb). cbn [flat_map]. unfold entry2412 at 1. cbn [fst snd]. rewrite Hv.
    rewrite flat_map_app, unlines_app, <- !app_assoc. apply anys_write; [assumption|]. apply IH; assumption.
Qed.
Lemma any_split : forall e, wf_any e -> map split (lines_any e) = map dec_Z (attrs e) :: (if (e_desc e =? 11)%Z then [map dec_Z (beams e)] else []) ++ [map dec_Z (e_nodes e)].
Proof.
  intros e (W1 & W2 & W3 & W5 & W6). unfold lines_any. cbn [map]. rewrite map_app. cbn [map].
  destruct (zline_ok' _ W6) as [_ ->]. destruct (zline_ok (e_num e) [e_desc e; e_phys e; e_mat e; e_color e; e_count e]) as [_ S1]; [assumption|assumption|exact W3|].
  unfold attrs. rewrite S1. f_equal. f_equal. destruct (Z.eqb_spec (e_desc e) 11); [|reflexivity]. specialize (W5 e0). unfold beams.
  destruct (e_beam e) as [[a b] c]. destruct W5 as [W5 W7]. inversion W5; subst. cbn [map]. f_equal. apply zline_ok; [apply fits_9_10; assumption|assumption|exact W7].
Qed.
Definition rod (e : elem) : Prop := In (e_desc e) [21; 22; 23; 24]%Z.
Lemma not_rod : forall e, ~ rod e -> is_beam e = (e_desc e =? 11)%Z.
Proof.
  intros e H. unfold is_beam, rod in *. cbn [existsb In] in *. destruct (e_desc e =? 11)%Z; [reflexivity|]. cbn [orb].
  repeat (rewrite (proj2 (Z.eqb_neq _ _)) by (intro; apply H; subst; auto)). reflexivity.
Qed.
Lemma any_wf : forall e, wf_any e -> ~ rod e -> wf_elem e.
Proof.
  intros e (W1 & W2 & W3 & W5 & W6) Hr. assert (Hb := not_rod e Hr). unfold wf_elem. repeat (split; [assumption|]). split; [|assumption].
  intro Ht. apply W5. rewrite Hb in Ht. apply Z.eqb_eq. assumption.
Qed.
(** A rod whose nodes are fewer than the three numbers of the missing line. *)
Lemma read_rod : forall e r, rod e -> length (e_nodes e) <= 2 -> read_elem2412 (map dec_Z (attrs e)) (map dec_Z (e_nodes e) :: r) = Err IndexError.
Proof.
  intros e r Hr Hl. unfold read_elem2412, tok_int, ln, attrs. cbn [map nth_error of_option rbind]. rewrite !py_int_dec. cbn [rbind].
  assert (E : is_rod (e_desc e) = true). { unfold is_rod, rod in *. apply existsb_exists. exists (e_desc e). split; [right; exact Hr|apply Z.eqb_refl]. }
  rewrite E. destruct (e_nodes e) as [|a [|b [|? ?]]]; [| | |cbn in Hl; lia]; cbn [map nth_error of_option rbind]; rewrite ?py_int_dec; cbn [rbind]; reflexivity.
Qed.
Lemma loop_rod : forall pre e r l fuel, Forall wf_elem pre -> rod e -> length (e_nodes e) <= 2 -> length pre < fuel ->
  loop2412 fuel (flat_map elem_toks pre ++ map dec_Z (attrs e) :: map dec_Z (e_nodes e) :: r) (typed l) = Err IndexError.
Proof.
  induction pre as [|p pre IH]; intros e r l fuel Hp Hr Hl Hf.
  - destruct fuel as [|fuel]; [cbn in Hf; lia|]. cbn [flat_map app loop2412]. rewrite (read_rod e r Hr Hl). reflexivity.
  - inversion Hp as [|? ? He Hes]; subst. destruct fuel as [|fuel]; [cbn in Hf; lia|]. cbn [flat_map elem_toks app loop2412]. rewrite <- !app_assoc. cbn [app].
    match goal with |- context [?i ++ map dec_Z (e_nodes p) :: ?t] => change (i ++ map dec_Z (e_nodes p) :: t) with (i ++ [map dec_Z (e_nodes p)] ++ t) end.
    rewrite read_elem by assumption. cbn [rbind]. rewrite add_typed. apply IH; try assumption. cbn in Hf. lia.
Qed.
Lemma first_rod : forall l : list elem, Exists (fun e => rod e /\ length (e_nodes e) <= 2) l -> Forall (fun e => rod e -> length (e_nodes e) <= 2) l ->
  exists pre e post, l = pre ++ e :: post /\ Forall (fun e => ~ rod e) pre /\ rod e /\ length (e_nodes e) <= 2.
Proof.
  induction l as [|a l IH]; intros H HF; [inversion H|]. inversion HF as [|? ? Ha HF']; subst.
  destruct (in_dec Z.eq_dec (e_desc a) [21; 22; 23; 24]%Z) as [Hr|Hr].
  - exists [], a, l. split; [reflexivity|]. split; [constructor|]. split; [exact Hr|]. apply Ha. exact Hr.
  - destruct IH as (pre & e & post & -> & H1 & H2 & H3); [|assumption|].
    { inversion H as [? ? [Hx _]|]; subst; [contradiction|assumption]. }
    exists (a :: pre), e, post. split; [reflexivity|]. split; [constructor; assumption|]. auto.
Qed.

(** A set whose rods have at most two nodes, and that has a rod. *)
Theorem C44_all_refuted : forall c m fd ho d l, repr2412 d l -> Forall wf_any l -> Forall (fun e => rod e -> length (e_nodes e) <= 2) l -> Exists rod l ->
  returns c m fd ho d (Err (read_error "2412")).
Proof.
  intros c m fd ho d l (Hty & Hdat & R) Hw H2 Hx. destruct (type_hdr_ok 2412 ltac:(lia)) as [Ht Hh].
  assert (Hok : Forall okline (type_hdr 2412 :: flat_map lines_any l)).
  { constructor; [assumption|]. apply Forall_fm. eapply Forall_impl; [|exact Hw]. exact lines_any_ok. }
  destruct (text_returns c m fd ho d 2412 (type_hdr 2412) (flat_map lines_any l)) as (block & Hb & Hr); [|assumption|assumption|].
  - rewrite (set_items_text c m fd d (VInt 2412) Hty Hdat). change (write_dispatch c m fd (VInt 2412) d) with (write2412 d). unfold write2412.
    cbn [wp_items]. rewrite hdr_writes. rewrite !unlines_cons'. eapply writes_eq.
    { apply writes_consr; [reflexivity|]. apply (entries_any d l); [assumption|exact end_writes]. }
    unfold type_hdr. rewrite <- !app_assoc. reflexivity.
  - enough (E : extract_set 2412 block ho = Err (read_error "2412")) by (rewrite E in Hr; exact Hr).
    unfold extract_set. rewrite Hb. cbn [Z.eqb Pos.eqb]. unfold extract2412.
    rewrite split_text by assumption. cbv beta iota zeta. cbn [map skipn].
    destruct (first_rod l) as (pre & e & post & -> & Hp & He & Hn); [|assumption|].
    { rewrite Exists_exists in *. rewrite Forall_forall in H2. destruct Hx as (e & Hin & He). exists e. auto. }
    assert (Es : map split (flat_map lines_any (pre ++ e :: post)) = flat_map elem_toks pre ++ map dec_Z (attrs e) :: map dec_Z (e_nodes e) :: map split (flat_map lines_any post)).
    { apply Forall_app in Hw as [Wp Wr]. inversion Wr as [|? ? We _]; subst. rewrite flat_map_app. cbn [flat_map]. rewrite !map_app. f_equal.
      - rewrite !flat_map_concat_map, concat_map, map_map. f_equal. apply map_ext_in. intros x Hin. rewrite Forall_forall in Wp, Hp.
        rewrite any_split by auto. unfold elem_toks. rewrite not_rod by auto. reflexivity.
      - rewrite any_split by assumption. assert (E11 : (e_desc e =? 11)%Z = false). { apply Z.eqb_neq. intro E. unfold rod in He. rewrite E in He. cbn in He. intuition discriminate. }
        rewrite E11. reflexivity. }
    match goal with |- context [map split ?x] => change (map split x) with (map split (flat_map lines_any (pre ++ e :: post))) end. rewrite Es.
    change [(KS "type", VInt 2412)] with (typed []). rewrite loop_rod; [reflexivity| |assumption|assumption|].
    + apply Forall_app in Hw as [Wp _]. rewrite Forall_forall in *. intros x Hin. apply any_wf; auto.
    + rewrite app_length. cbn [length]. clear. enough (length pre <= length (flat_map elem_toks pre)) by lia.
      induction pre as [|x pre IH]; [cbn; lia|]. cbn [flat_map length]. rewrite app_length. unfold elem_toks at 1. cbn [length]. lia.
Qed.
Print Assumptions C44_all_refuted.
Definition d2412_rod : dict := Eval vm_compute in
  [(KS "type", VInt 2412); (KI 44, VList [elem_dict 1 44 4 [1; 2; 3; 4] []]%Z);
   (KI 21, VList [elem_dict 2 21 2 [1; 9] [(KS "beam_orientation", VInt 0); (KS "beam_foreend_cross", VInt 1); (KS "beam_aftend_cross", VInt 1)]]%Z)].
Definition l2412_rod : list elem := Eval vm_compute in
  let e n d k ns := {| e_num := n; e_desc := d; e_phys := 1; e_mat := 2; e_color := 7; e_count := k; e_beam := (0, 1, 1)%Z; e_nodes := ns |} in
  [e 1 44 4 [1; 2; 3; 4]; e 2 21 2 [1; 9]]%Z.
Example C44_example : repr2412 d2412_rod l2412_rod /\ Forall wf_any l2412_rod /\ Forall (fun e => rod e -> length (e_nodes e) <= 2) l2412_rod /\ Exists rod l2412_rod.
Proof.
  split; [|split; [|split]].
  - split; [reflexivity|]. split; [reflexivity|]. unfold d2412_rod, l2412_rod. cbn [elems_of].
    eexists [_], [_]. split; [reflexivity|]. split; [eexists; split; [reflexivity|repeat (constructor; [wit_elem|]); constructor]|].
    eexists [_], []. split; [reflexivity|]. split; [eexists; split; [reflexivity|repeat (constructor; [wit_elem|]); constructor]|]. reflexivity.
  - unfold l2412_rod. repeat (constructor; [unfold wf_any; cbn [e_num e_desc e_phys e_mat e_color e_count e_nodes e_beam];
      do 3 (split; [wit|]); split; [intro Hb; first [discriminate Hb|clear Hb; wit]|wit]|]). constructor.
  - unfold l2412_rod. constructor; [intro H; cbn in H; intuition discriminate|]. constructor; [intros _; cbn; lia|constructor].
  - apply Exists_cons_tl. apply Exists_cons_hd. left. reflexivity.
Qed.
