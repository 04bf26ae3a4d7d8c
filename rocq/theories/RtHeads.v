(** Storing and reading back data sets 151, 164, 1858 and 2400. *)
From Verif Require Import PyBase PyNum PyVal Utf8 Tools DsNodes DsHeaders Uff Facts IntFacts FloatFacts DecFacts FloatText FloatExact DictFacts
  Scan Container Append ContainerThms Utf8Facts Lines Stored Cells Rows RtNodes.
From Coq Require Import Lia.
Open Scope nat_scope.
Open Scope list_scope.

(** A header line made of cells. *)
Definition reads_as (t : Z) (c : cell) (v : option pyval) : Prop := field_val t (strip (cell_text c)) = Ok v.
Lemma header_cells : forall l ws mn widths types names vals,
  Forall width_ok l -> widths = map cell_width l ++ ws ->
  length l + length ws = length vals -> length types = length vals -> length names = length vals -> mn <= length vals ->
  Forall2 (fun tf v => field_val (fst tf) (snd tf) = Ok v) (combine types (map strip (map cell_text l) ++ repeat [] (length ws))) vals ->
  parse_header_line (cells_text l ++ [LF]) mn widths types names = Ok (put_all [] (combine names vals)).
Proof.
  intros l ws mn widths types names vals Hl -> H1 H2 H3 H4 H5.
  apply (header_segs (map cell_text l) [LF] _ mn _ ws); try assumption; try reflexivity.
  - rewrite cells_lengths by assumption. reflexivity.
  - rewrite map_length. assumption.
Qed.
Lemma cells_one : forall c, cells_text [c] = cell_text c.
Proof. intro c. unfold cells_text. cbn [map concat]. apply app_nil_r. Qed.

Ltac hdr_vals := repeat (constructor; [cbn [fst snd]; first [apply fv_int|apply fv_flt|apply fv_strl|apply fv_strr|apply fv_none|reflexivity]|]); constructor.
(** One cell line: all side conditions by computation. *)
Ltac hdr_cells ll ww vv Hw :=
  rewrite (header_cells ll ww) with (vals := vv);
  [cbn [rbind]|exact Hw|reflexivity|reflexivity|reflexivity|reflexivity|cbn; lia|hdr_vals].
(** Entries after the defaults are put in. *)
Ltac lift R :=
  match type of R with
  | has _ ?d ?k _ => match goal with |- context [opt_fields d ?defs] => apply (has_opt _ _ _ defs) in R end
  | has_or _ ?d ?k _ _ => match goal with |- context [opt_fields d ?defs] =>
      let Q := fresh "Q" in eassert (Q : has _ (opt_fields d defs) _ _) by (eapply has_opt_or; [exact R|reflexivity|reflexivity]); clear R; rename Q into R end
  end.

(* ------------------------------------------------------------------ *)
(** ** 151 *)

Record head151 := { a_model : str; a_desc : str; a_app : str; a_prog : str;
  a_date1 : str; a_time1 : str; a_date2 : str; a_time2 : str; a_date3 : str; a_time3 : str;
  a_v1 : Z; a_v2 : Z; a_ft : Z }.
(** Dates and times that are not given are those of the clock; the versions are
    integers or their decimal text. *)
Definition repr151 (c : clock) (d : dict) (h : head151) : Prop :=
  dget d (KS "type") = Some (VInt 151) /\ dget d (KS "data") = None /\
  has as_txt d "model_name" (a_model h) /\ has as_txt d "description" (a_desc h) /\ has as_txt d "db_app" (a_app h) /\
  has as_txt d "program" (a_prog h) /\
  has_or as_txt d "date_db_created" (a_date1 h) (now_date c) /\ has_or as_txt d "time_db_created" (a_time1 h) (now_time c) /\
  has_or as_txt d "date_db_saved" (a_date2 h) (now_date c) /\ has_or as_txt d "time_db_saved" (a_time2 h) (now_time c) /\
  has_or as_txt d "date_file_written" (a_date3 h) (now_date c) /\ has_or as_txt d "time_file_written" (a_time3 h) (now_time c) /\
  has_or as_txt d "version_db1" (dec_Z (a_v1 h)) (lit "0") /\ has_or as_txt d "version_db2" (dec_Z (a_v2 h)) (lit "0") /\
  has_or as_txt d "file_type" (dec_Z (a_ft h)) (lit "0").
Definition short_text (w : nat) (s : str) : Prop := text_ok s /\ length s <= w.
Definition wf151 (h : head151) : Prop :=
  Forall text_ok [a_model h; a_desc h; a_app h; a_prog h] /\
  Forall (short_text 10) [a_date1 h; a_time1 h; a_date2 h; a_time2 h; a_date3 h; a_time3 h] /\
  Forall (fits 10) [a_v1 h; a_v2 h; a_ft h] /\ a_ft h <> (-1)%Z.
Definition read151 (h : head151) : dict :=
  [(KS "type", VInt 151); (KS "model_name", VStr (strip (firstn 80 (a_model h)))); (KS "description", VStr (strip (firstn 80 (a_desc h))));
   (KS "db_app", VStr (strip (firstn 80 (a_app h))));
   (KS "date_db_created", VStr (strip (a_date1 h))); (KS "time_db_created", VStr (strip (a_time1 h)));
   (KS "version_db1", VInt (a_v1 h)); (KS "version_db2", VInt (a_v2 h)); (KS "file_type", VInt (a_ft h));
   (KS "date_db_saved", VStr (strip (a_date2 h))); (KS "time_db_saved", VStr (strip (a_time2 h)));
   (KS "program", VStr (strip (firstn 80 (a_prog h))));
   (KS "date_file_written", VStr (strip (a_date3 h))); (KS "time_file_written", VStr (strip (a_time3 h)))].

Definition vers151 (h : head151) : list cell :=
  [CS true 10 (a_date1 h); CS true 10 (a_time1 h); CI 10 (a_v1 h); CI 10 (a_v2 h); CI 10 (a_ft h)].
Definition times (a b : str) : list cell := [CS true 10 a; CS true 10 b].
Definition lines151 (h : head151) : list str :=
  [ljust 80 (a_model h); ljust 80 (a_desc h); ljust 80 (a_app h); cells_text (vers151 h);
   cells_text (times (a_date2 h) (a_time2 h)); ljust 80 (a_prog h); cells_text (times (a_date3 h) (a_time3 h))].

Lemma times_ok : forall a b, short_text 10 a -> short_text 10 b -> okline (cells_text (times a b)) /\ Forall width_ok (times a b).
Proof.
  intros a b [[Pa Ta] La] [[Pb Tb] Lb].
  assert (Hw : Forall width_ok (times a b)) by (repeat (constructor; [assumption|]); constructor).
  split; [|assumption]. apply (okline_cells [CS true 10 a] (CS true 10 b)).
  - repeat (constructor; [assumption|]). constructor.
  - assumption.
  - cbn [last_ok]. split; [lia|assumption].
  - cbn. lia.
Qed.

Lemma set151 : forall c m fd ho d h, repr151 c d h -> wf151 h -> text_set c m fd ho d 151 (type_hdr 151) (lines151 h) (read151 h).
Proof.
  intros c m fd ho d h (Hty & Hdat & R1 & R2 & R3 & R4 & R5 & R6 & R7 & R8 & R9 & R10 & R11 & R12 & R13) (W1 & W2 & W3 & W4).
  destruct (type_hdr_ok 151 ltac:(lia)) as [Ht Hh].
  inversion W1 as [|? ? T1 W1']; subst. inversion W1' as [|? ? T2 W1'']; subst. inversion W1'' as [|? ? T3 W1a]; subst. inversion W1a as [|? ? T4 _]; subst.
  inversion W2 as [|? ? D1 X1]; subst. inversion X1 as [|? ? E1 X2]; subst. inversion X2 as [|? ? D2 X3]; subst. inversion X3 as [|? ? E2 X4]; subst.
  inversion X4 as [|? ? D3 X5]; subst. inversion X5 as [|? ? E3 _]; subst.
  inversion W3 as [|? ? V1 Y1]; subst. inversion Y1 as [|? ? V2 Y2]; subst. inversion Y2 as [|? ? V3 _]; subst. clear W1 W1' W1'' W1a W2 X1 X2 X3 X4 X5 W3 Y1 Y2.
  destruct (times_ok _ _ D2 E2) as [O2 Wd2]. destruct (times_ok _ _ D3 E3) as [O3 Wd3].
  assert (Wv : Forall width_ok (vers151 h)).
  { constructor; [apply D1|]. constructor; [apply E1|]. repeat (constructor; [cbn [width_ok]; apply fits_le; [lia|assumption]|]). constructor. }
  assert (Ov : okline (cells_text (vers151 h))).
  { apply (okline_cells [CS true 10 (a_date1 h); CS true 10 (a_time1 h); CI 10 (a_v1 h); CI 10 (a_v2 h)] (CI 10 (a_ft h))).
    - constructor; [apply D1|]. constructor; [apply E1|]. repeat constructor.
    - assumption.
    - cbn [last_ok]. split; [lia|assumption].
    - cbn. lia. }
  assert (Hok : Forall okline (type_hdr 151 :: lines151 h)).
  { constructor; [assumption|]. unfold lines151. repeat (constructor; [first [assumption|apply text_ok_line; assumption]|]). constructor. }
  constructor; [|assumption|assumption|].
  - rewrite (set_items_text c m fd d (VInt 151) Hty Hdat). change (write_dispatch c m fd (VInt 151) d) with (write151 c d). unfold write151.
    cbn [wp_items]. lift R1; lift R2; lift R3; lift R4; lift R5; lift R6; lift R7; lift R8; lift R9; lift R10; lift R11; lift R12; lift R13.
    set (d1 := opt_fields d _) in *.
    clearbody d1.
    rewrite hdr_writes. unfold lines151. rewrite !unlines_cons'.
    change (cells_text (vers151 h)) with (cells_text [CS true 10 (a_date1 h); CS true 10 (a_time1 h);
      CS false 10 (dec_Z (a_v1 h)); CS false 10 (dec_Z (a_v2 h)); CS false 10 (dec_Z (a_ft h))]).
    eapply writes_eq.
    { apply writes_consr; [reflexivity|].
      apply (writes_line _ _ [CS true 80 (a_model h)]); [reflexivity|cbn [cells_args app]; auto using has_gs|].
      apply (writes_line _ _ [CS true 80 (a_desc h)]); [reflexivity|cbn [cells_args app]; auto using has_gs|].
      apply (writes_line _ _ [CS true 80 (a_app h)]); [reflexivity|cbn [cells_args app]; auto using has_gs|].
      apply (writes_line _ _ [CS true 10 (a_date1 h); CS true 10 (a_time1 h);
        CS false 10 (dec_Z (a_v1 h)); CS false 10 (dec_Z (a_v2 h)); CS false 10 (dec_Z (a_ft h))]); [reflexivity|cbn [cells_args app]; auto 10 using has_gs|].
      apply (writes_line _ _ (times (a_date2 h) (a_time2 h))); [reflexivity|cbn [times cells_args app]; auto using has_gs|].
      apply (writes_line _ _ [CS true 80 (a_prog h)]); [reflexivity|cbn [cells_args app]; auto using has_gs|].
      apply (writes_line _ _ (times (a_date3 h) (a_time3 h))); [reflexivity|cbn [times cells_args app]; auto using has_gs|].
      exact end_writes. }
    rewrite !cells_one. unfold type_hdr. cbn [cell_text unlines map concat app]. rewrite <- !app_assoc. reflexivity.
  - intros block _ Hb. unfold extract_set. rewrite Hb. cbn [Z.eqb Pos.eqb]. unfold extract151.
    rewrite split_text by assumption. cbv beta iota zeta. unfold lines151, recs151, H. cbn [map].
    cbn [header_recs h_line h_min h_widths h_types h_names ln nth_error of_option rbind].
    rewrite !header_str80. cbn [rbind].
    hdr_cells (vers151 h) (@nil nat) [Some (VStr (strip (a_date1 h))); Some (VStr (strip (a_time1 h))); Some (VInt (a_v1 h)); Some (VInt (a_v2 h)); Some (VInt (a_ft h))] Wv.
    hdr_cells (times (a_date2 h) (a_time2 h)) (@nil nat) [Some (VStr (strip (a_date2 h))); Some (VStr (strip (a_time2 h)))] Wd2.
    hdr_cells (times (a_date3 h) (a_time3 h)) (@nil nat) [Some (VStr (strip (a_date3 h))); Some (VStr (strip (a_time3 h)))] Wd3.
    reflexivity.
Qed.

(* ------------------------------------------------------------------ *)
(** ** 164 *)

(** Every e is followed by + or -. *)
Fixpoint e_signed (s : str) : bool :=
  match s with
  | [] => true
  | c :: r => (if (c =? 101)%N then match r with c' :: _ => ((c' =? 43) || (c' =? 45))%N | [] => false end else true) && e_signed r
  end.
Lemma e_signed_app : forall a b, e_signed a = true -> e_signed b = true -> e_signed (a ++ b) = true.
Proof.
  induction a as [|c a IH]; intros b Ha Hb; [assumption|]. cbn [app e_signed] in *. apply andb_true_iff in Ha as [H1 H2].
  rewrite IH by assumption. rewrite andb_true_r. destruct (c =? 101)%N; [|reflexivity]. destruct a; [discriminate|assumption].
Qed.
Lemma e_signed_free : forall s, forallb (fun c => negb (c =? 101)%N) s = true -> e_signed s = true.
Proof.
  induction s as [|c s IH]; intro H; [reflexivity|]. cbn [forallb e_signed] in *. apply andb_true_iff in H as [H1 H2].
  destruct (c =? 101)%N; [discriminate|]. cbn [andb]. apply IH. assumption.
Qed.
Lemma replace2_skip : forall a1 a2 b1 b2 c s, c <> a1 -> replace2 a1 a2 b1 b2 (c :: s) = c :: replace2 a1 a2 b1 b2 s.
Proof. intros a1 a2 b1 b2 c [|c' s] H; [reflexivity|]. cbn [replace2]. rewrite (proj2 (N.eqb_neq c a1)) by assumption. reflexivity. Qed.
Definition eD : str -> str := replace1 101 68.
Lemma e_to_D_map : forall n s, length s <= n -> e_signed s = true -> e_to_D s = eD s.
Proof.
  induction n as [|n IH]; intros s Hn H.
  - destruct s; [reflexivity|cbn in Hn; lia].
  - destruct s as [|c s]; [reflexivity|]. cbn [e_signed] in H. apply andb_true_iff in H as [H1 H2]. cbn [length] in Hn.
    unfold e_to_D. destruct (N.eqb_spec c 101) as [->|Hc].
    + destruct s as [|c' r]; [discriminate|]. cbn [e_signed] in H2. apply andb_true_iff in H2 as [_ H2]. cbn [length] in Hn.
      unfold eD, replace1. cbn [map]. change (map (fun c0 => if (c0 =? 101)%N then 68%N else c0) r) with (eD r). rewrite <- (IH r) by (lia || assumption).
      apply orb_true_iff in H1 as [E|E]; apply N.eqb_eq in E; subst c'.
      * change (replace2 101 43 68 43 (101%N :: 43%N :: r)) with (68%N :: 43%N :: replace2 101 43 68 43 r).
        rewrite !replace2_skip by discriminate. reflexivity.
      * change (replace2 101 43 68 43 (101%N :: 45%N :: r)) with (101%N :: replace2 101 43 68 43 (45%N :: r)).
        rewrite (replace2_skip 101 43) by discriminate. reflexivity.
    + rewrite !replace2_skip by assumption. unfold eD, replace1. cbn [map]. rewrite (proj2 (N.eqb_neq c 101)) by assumption.
      change (map (fun c0 => if (c0 =? 101)%N then 68%N else c0) s) with (eD s). rewrite <- (IH s) by (lia || assumption). reflexivity.
Qed.

(** Characters of %.16e: besides the exponent mark neither capitals nor d. *)
Definition lowch (c : N) : bool := negb ((65 <=? c) && (c <=? 90))%N && negb (c =? 100)%N.
Lemma digit_lowch : forall c, is_digit c = true -> lowch c = true /\ negb (c =? 101)%N = true.
Proof.
  intros c H. unfold is_digit in H. apply andb_true_iff in H as [H1 H2]. apply N.leb_le in H1. apply N.leb_le in H2.
  unfold lowch. rewrite (proj2 (N.leb_gt 65 c)) by lia. rewrite (proj2 (N.eqb_neq c 100)) by lia. rewrite (proj2 (N.eqb_neq c 101)) by lia. auto.
Qed.
Lemma mant_low : forall p ds, mant_ok p ds -> forallb lowch (mant_of p ds) = true /\ e_signed (mant_of p ds) = true.
Proof.
  intros p ds Hm. destruct (mant_of_chars p ds Hm) as (c & r & Em & Hc & Hall & _).
  assert (G : forallb (fun a => lowch a && negb (a =? 101)%N) (mant_of p ds) = true).
  { eapply forallb_impl; [|exact Hall]. intros a Ha. apply orb_true_iff in Ha as [Ha|Ha].
    - apply digit_lowch in Ha as [-> ->]. reflexivity.
    - apply N.eqb_eq in Ha. subst. reflexivity. }
  split; [|apply e_signed_free]; (eapply forallb_impl; [|exact G]); intros a Ha; apply andb_true_iff in Ha; tauto.
Qed.
Lemma exp_low : forall k, forallb lowch (exp_text false k) = true /\ e_signed (exp_text false k) = true.
Proof.
  intro k. destruct (exp_digits false k) as (es & -> & Hes & _). split.
  - cbn [forallb]. apply andb_true_iff. split; [reflexivity|]. apply andb_true_iff. split; [destruct (k <? 0)%Z; reflexivity|].
    eapply forallb_impl; [|exact Hes]. intros c Hc. apply digit_lowch. assumption.
  - cbn [e_signed N.eqb Pos.eqb]. apply andb_true_iff. split; [destruct (k <? 0)%Z; reflexivity|].
    apply andb_true_iff. split; [destruct (k <? 0)%Z; reflexivity|]. apply e_signed_free.
    eapply forallb_impl; [|exact Hes]. intros c Hc. apply digit_lowch. assumption.
Qed.
Lemma fmt_low : forall p f, forallb lowch (fmt_e false p f) = true /\ e_signed (fmt_e false p f) = true.
Proof.
  assert (G : forall s p ds k, mant_ok p ds ->
    forallb lowch (sign_text s ++ mant_of p ds ++ exp_text false k) = true /\ e_signed (sign_text s ++ mant_of p ds ++ exp_text false k) = true).
  { intros s p ds k Hm. destruct (mant_low p ds Hm) as [M1 M2]. destruct (exp_low k) as [X1 X2]. split.
    - rewrite !forallb_app, M1, X1. destruct s; reflexivity.
    - apply e_signed_app; [destruct s; reflexivity|]. apply e_signed_app; assumption. }
  intros p [s|s| |s m e]; cbn [fmt_e].
  - change (mant_text p 0) with (mant_of p (pad0 (S p) (dec_nat 0))). apply G. apply mant_zero.
  - destruct s; split; reflexivity.
  - split; reflexivity.
  - destruct (dec_round (Z.of_nat p) m e) as [q k] eqn:Ed.
    destruct (dec_round_spec _ _ _ _ _ (Nat2Z.is_nonneg p) Ed) as (Hq & _).
    destruct (mant_digits p q Hq) as [Hm Hv].
    change (mant_text p q) with (mant_of p (pad0 (S p) (dec_nat q))). apply G. assumption.
Qed.
Lemma undo_eD : forall s, forallb lowch s = true -> replace1 100 101 (lower (eD s)) = s.
Proof.
  intros s H. unfold replace1, lower, eD, replace1. rewrite !map_map. rewrite <- (map_id s) at 2. apply map_ext_in. intros c Hc.
  rewrite forallb_forall in H. specialize (H c Hc). unfold lowch in H. apply andb_true_iff in H as [H1 H2].
  destruct (N.eqb_spec c 101) as [->|Hn]; [reflexivity|]. unfold lower_char. destruct ((65 <=? c) && (c <=? 90))%N; [discriminate|].
  destruct (c =? 100)%N; [discriminate|reflexivity].
Qed.

Record units := { u_code : Z; u_desc : str; u_mode : Z; u_len : float; u_force : float; u_temp : float; u_off : float }.
Definition repr164 (d : dict) (u : units) : Prop :=
  dget d (KS "type") = Some (VInt 164) /\ dget d (KS "data") = None /\
  has as_int d "units_code" (u_code u) /\ has_or as_txt d "units_description" (u_desc u) (lit "User unit system") /\
  has_or as_int d "temp_mode" (u_mode u) 1%Z /\
  has as_flt d "length" (u_len u) /\ has as_flt d "force" (u_force u) /\ has as_flt d "temp" (u_temp u) /\ has as_flt d "temp_offset" (u_off u).
Definition wf164 (u : units) : Prop :=
  fits 10 (u_code u) /\ short_text 20 (u_desc u) /\ fits 10 (u_mode u) /\ u_mode u <> (-1)%Z /\
  Forall (fun f => f_valid f = true) [u_len u; u_force u; u_temp u; u_off u].
Definition read164 (u : units) : dict :=
  [(KS "type", VInt 164); (KS "units_code", VInt (u_code u)); (KS "units_description", VStr (strip (u_desc u)));
   (KS "temp_mode", VInt (u_mode u)); (KS "length", VFloat (u_len u)); (KS "force", VFloat (u_force u));
   (KS "temp", VFloat (u_temp u)); (KS "temp_offset", VFloat (u_off u))].

Definition head164 (u : units) : list cell := [CI 10 (u_code u); CS false 20 (u_desc u); CI 10 (u_mode u)].
Definition dseg (f : float) : str := rjust 25 (eD (fmt_e false 16 f)).
Definition lines164 (u : units) : list str :=
  [cells_text (head164 u); concat (map dseg [u_len u; u_force u; u_temp u]); concat (map dseg [u_off u])].

Lemma eD_app : forall a b, eD (a ++ b) = eD a ++ eD b.
Proof. intros a b. apply map_app. Qed.
Lemma eD_blanks : forall n, eD (repeat blank n) = repeat blank n.
Proof. induction n as [|n IH]; [reflexivity|]. cbn [repeat]. unfold eD, replace1 in *. cbn [map]. rewrite IH. reflexivity. Qed.
Lemma dseg_eD : forall f, dseg f = eD (rjust 25 (fmt_e false 16 f)).
Proof. intro f. unfold dseg, rjust. rewrite eD_app, eD_blanks. unfold eD, replace1. rewrite map_length. reflexivity. Qed.
Lemma eD_nonws : forall f, nonws (eD (fmt_e false 16 f)).
Proof.
  intro f. destruct (fmt_e_nonws false 16 f) as [H1 H2]. split.
  - intro E. apply map_eq_nil in E. contradiction.
  - unfold eD, replace1. rewrite forallb_forall in *. intros c Hc. apply in_map_iff in Hc as (x & <- & Hx). specialize (H2 x Hx).
    destruct (x =? 101)%N; [reflexivity|assumption].
Qed.
Lemma eD_plain : forall s, plain s -> plain (eD s).
Proof.
  intros s [H1 H2]. unfold eD, replace1, plain, no_lb in *. split.
  - rewrite forallb_forall in *. intros c Hc. apply in_map_iff in Hc as (x & <- & Hx). specialize (H1 x Hx). destruct (x =? 101)%N; [reflexivity|assumption].
  - rewrite Forall_map. eapply Forall_impl; [|exact H2]. intros c Hc. cbn beta. destruct (c =? 101)%N; [apply scalar_ascii; lia|assumption].
Qed.
Lemma dseg_length : forall f, f_valid f = true -> length (dseg f) = 25 /\ lead_ws (dseg f).
Proof.
  intros f H. assert (L := fmt16_lt f H). assert (El : length (eD (fmt_e false 16 f)) = length (fmt_e false 16 f)) by apply map_length.
  unfold dseg. split; [apply rjust_length; lia|apply lead_rjust; lia].
Qed.
Lemma dsegs_ok : forall l f, Forall (fun f => f_valid f = true) (l ++ [f]) -> length l <= 2 ->
  okline (concat (map dseg (l ++ [f]))) /\ split (concat (map dseg (l ++ [f]))) = map (fun f => eD (fmt_e false 16 f)) (l ++ [f]).
Proof.
  intros l f H Hl. split.
  - apply okline_plain.
    + apply plain_concat. rewrite Forall_map, Forall_forall. intros x _. rewrite dseg_eD. apply eD_plain, plain_rjust, plain_fmt.
    + rewrite map_app, concat_app. cbn [map concat]. rewrite app_nil_r. unfold dseg at 2. intro He.
      apply ends_tag_rjust in He; [|apply eD_nonws|lia]. assert (H' := fmt_e_expch false 16 f).
      assert (Ht : forall s, eD s = [45; 49]%N -> existsb expch s = false).
      { intros [|a [|b [|? ?]]] E; try discriminate. unfold eD, replace1 in E. cbn [map] in E.
        assert (E1 : (if (a =? 101)%N then 68%N else a) = 45%N) by congruence. assert (E2 : (if (b =? 101)%N then 68%N else b) = 49%N) by congruence.
        destruct (a =? 101)%N; [discriminate|]. destruct (b =? 101)%N; [discriminate|]. subst. reflexivity. }
      rewrite (Ht _ He) in H'. discriminate.
    + assert (E : length (concat (map dseg (l ++ [f]))) = 25 * length (l ++ [f])).
      { clear Hl. induction H as [|x r Hx _ IH]; [reflexivity|]. cbn [map concat length]. rewrite app_length, IH.
        destruct (dseg_length x Hx) as [-> _]. lia. }
      rewrite E, app_length. cbn [length]. lia.
  - rewrite split_concat.
    + clear Hl. induction H as [|x r Hx _ IH]; [reflexivity|]. cbn [map flat_map]. rewrite IH. unfold dseg at 1.
      rewrite split_rjust by apply eD_nonws. reflexivity.
    + rewrite Forall_map. eapply Forall_impl; [|exact H]. intros x Hx. apply dseg_length. assumption.
Qed.
Lemma factor_ok : forall toks i f, nth_error toks i = Some (eD (fmt_e false 16 f)) -> f_valid f = true -> factor164 toks i = Ok f.
Proof.
  intros toks i f H Hv. unfold factor164, ln. rewrite H. cbn [of_option rbind]. rewrite undo_eD by apply fmt_low.
  rewrite py_float_fmt, rd16_id by assumption. reflexivity.
Qed.

Lemma set164 : forall c m fd ho d u, repr164 d u -> wf164 u -> text_set c m fd ho d 164 (type_hdr 164) (lines164 u) (read164 u).
Proof.
  intros c m fd ho d u (Hty & Hdat & R1 & R2 & R3 & R4 & R5 & R6 & R7) (W1 & (W2 & W3) & W4 & W5 & W6).
  destruct (type_hdr_ok 164 ltac:(lia)) as [Ht Hh].
  assert (V : f_valid (u_len u) = true /\ f_valid (u_force u) = true /\ f_valid (u_temp u) = true /\ f_valid (u_off u) = true).
  { rewrite Forall_forall in W6. repeat split; apply W6; cbn; tauto. }
  destruct V as (V1 & V2 & V3 & V4).
  assert (Wh : Forall width_ok (head164 u)).
  { constructor; [cbn [width_ok]; apply fits_le; [lia|assumption]|]. constructor; [assumption|]. constructor; [cbn [width_ok]; apply fits_le; [lia|assumption]|]. constructor. }
  destruct (dsegs_ok [u_len u; u_force u] (u_temp u)) as [O1 S1]; [cbn [app]; auto|cbn; lia|].
  destruct (dsegs_ok [] (u_off u)) as [O2 S2]; [cbn [app]; auto|cbn; lia|]. cbn [app] in O1, S1, O2, S2.
  assert (Hok : Forall okline (type_hdr 164 :: lines164 u)).
  { constructor; [assumption|]. unfold lines164. constructor; [|constructor; [assumption|constructor; [assumption|constructor]]].
    apply (okline_cells [CI 10 (u_code u); CS false 20 (u_desc u)] (CI 10 (u_mode u))).
    - constructor; [exact Logic.I|]. constructor; [apply W2|]. repeat constructor.
    - assumption.
    - cbn [last_ok]. split; [lia|assumption].
    - cbn. lia. }
  constructor; [|assumption|assumption|].
  - rewrite (set_items_text c m fd d (VInt 164) Hty Hdat). change (write_dispatch c m fd (VInt 164) d) with (write164 d). unfold write164.
    cbn [wp_items]. lift R1; lift R2; lift R3; lift R4; lift R5; lift R6; lift R7. set (d1 := opt_fields d _) in *. clearbody d1.
    rewrite hdr_writes. unfold lines164. rewrite !unlines_cons'.
    eapply writes_eq.
    { apply writes_consr; [reflexivity|].
      apply (writes_line _ _ (head164 u)); [reflexivity|cbn [head164 cells_args app]; auto using has_gs, has_gi|].
      rewrite (pct_cells _ _ [CE 25 16 (u_len u); CE 25 16 (u_force u); CE 25 16 (u_temp u); CL LF; CE 25 16 (u_off u); CL LF]);
        [|reflexivity|cbn [cells_args]; auto 10 using has_gf].
      cbn [rbind].
      rewrite (e_to_D_map _ _ (Nat.le_refl _)).
      2:{ unfold cells_text. cbn [map concat cell_text app]. unfold rjust.
          repeat (apply e_signed_app; [first [apply e_signed_free, forallb_repeat; reflexivity|apply fmt_low|apply e_signed_app; [apply e_signed_free, forallb_repeat; reflexivity|apply fmt_low]|reflexivity]|]). reflexivity. }
      apply writes_consr; [reflexivity|]. exact end_writes. }
    unfold cells_text. cbn [map concat cell_text]. rewrite !eD_app. rewrite <- !dseg_eD. change (eD [LF]) with [LF]. change (eD []) with (@nil N).
    unfold type_hdr, unlines. cbn [map concat]. rewrite !app_nil_r. rewrite <- !app_assoc. cbn [app]. reflexivity.
  - intros block _ Hb. unfold extract_set. rewrite Hb. cbn [Z.eqb Pos.eqb]. unfold extract164.
    rewrite split_text by assumption. cbv beta iota zeta. unfold lines164, H. cbn [map].
    cbn [header_recs h_line h_min h_widths h_types h_names ln nth_error of_option rbind skipn].
    hdr_cells (head164 u) (@nil nat) [Some (VInt (u_code u)); Some (VStr (strip (u_desc u))); Some (VInt (u_mode u))] Wh.
    match goal with |- context [join ?x] => change (join x) with (unlines [concat (map dseg [u_len u; u_force u; u_temp u]); concat (map dseg [u_off u])]) end.
    rewrite split_unlines. cbn [flat_map]. rewrite S1, S2. cbn [map app].
    rewrite (factor_ok _ 0 (u_len u)), (factor_ok _ 1 (u_force u)), (factor_ok _ 2 (u_temp u)), (factor_ok _ 3 (u_off u)) by (reflexivity || assumption).
    reflexivity.
Qed.

(* ------------------------------------------------------------------ *)
(** ** 1858 *)

Record qual := { q_rec : Z; q_oct : Z; q_run : Z; q_ints : list Z;
  q_z : list float; q_user : list float; q_resp : str; q_ref : str }.
(** The names of the integers of record 2, in the order of the record. *)
Definition keys1858 : list string :=
  ["weighting_type"; "window_type"; "amplitude_units"; "normalization_method";
   "abscissa_data_type_qualifier"; "ordinate_numerator_data_type_qualifier";
   "ordinate_denominator_data_type_qualifier"; "z_axis_data_type_qualifier"; "sampling_type"]%string.
Definition zs1858 : list string := ["z_rpm_value"; "z_time_value"; "z_order_value"; "num_of_samples"]%string.
Definition us1858 : list string := ["user_value_1"; "user_value_2"; "user_value_3"; "user_value_4"; "exponential_window_damping_factor"]%string.
Definition repr1858 (d : dict) (q : qual) : Prop :=
  dget d (KS "type") = Some (VInt 1858) /\ dget d (KS "data") = None /\
  has as_int d "record_num" (q_rec q) /\ has as_int d "octave_format" (q_oct q) /\ has as_int d "measurement_run" (q_run q) /\
  Forall2 (fun k z => has as_int d k z) keys1858 (q_ints q) /\
  Forall2 (fun k f => has as_flt d k f) zs1858 (q_z q) /\ Forall2 (fun k f => has as_flt d k f) us1858 (q_user q) /\
  has as_txt d "response_direction" (q_resp q) /\ has as_txt d "reference_direction" (q_ref q).
Definition short_plain (w : nat) (s : str) : Prop := plain s /\ length s <= w.
(** The second and third integer are written ten wide and read twelve wide, hence
    the limits of 8 and 6 characters. *)
Definition wf1858 (q : qual) : Prop :=
  fits 10 (q_rec q) /\ fits 8 (q_oct q) /\ fits 6 (q_run q) /\ Forall (fits 6) (q_ints q) /\
  Forall (fun f => f_valid f = true) (q_z q) /\ Forall (fun f => f_valid f = true) (q_user q) /\
  short_plain 4 (q_resp q) /\ short_plain 4 (q_ref q) /\ q_ref q <> lit "  -1".
Definition read1858 (q : qual) : dict :=
  [(KS "type", VInt 1858); (KS "record_num", VInt (q_rec q)); (KS "octave_format", VInt (q_oct q)); (KS "measurement_run", VInt (q_run q))] ++
  map (fun kz => (KS (fst kz), VInt (snd kz))) (combine keys1858 (q_ints q)) ++
  map (fun kf => (KS (fst kf), VFloat (rd 7 (snd kf)))) (combine zs1858 (q_z q)) ++
  map (fun kf => (KS (fst kf), VFloat (rd 7 (snd kf)))) (combine us1858 (q_user q)) ++
  [(KS "response_direction", VStr (strip (q_resp q))); (KS "reference_direction", VStr (strip (q_ref q)))].

Definition rec1858 (q : qual) : list cell := map (CI 10) [q_rec q; q_oct q; q_run q; 0; 0; 0]%Z.
Definition flts (l : list float) : str := cells_text (map (CE 15 7) l).
Definition dirs (q : qual) : list cell := [CS true 4 (q_resp q); CS false 2 []; CS true 4 (q_ref q)].
Definition lines1858 (q : qual) : list str :=
  [cells_text (rec1858 q); cells_text (map (CI 6) (q_ints q ++ [0; 0; 0]%Z)); flts (q_z q ++ [f_zero]); flts (q_user q);
   flts (repeat f_zero 5); cells_text (dirs q); ljust 80 (lit "NONE")].

Lemma rjust_split : forall a b s, length s <= a -> rjust (b + a) s = repeat blank b ++ rjust a s.
Proof. intros a b s H. unfold rjust. rewrite app_assoc, <- repeat_app. f_equal. f_equal. lia. Qed.
Lemma strip_tail : forall s n, strip (s ++ repeat blank n) = strip s.
Proof. intros. apply (strip_by_post is_ws). apply blanks_ws. Qed.
Lemma flts_ok : forall l, l <> [] -> length l <= 5 -> Forall (fun f => f_valid f = true) l -> okline (flts l) /\ Forall width_ok (map (CE 15 7) l).
Proof.
  intros l Hn Hl H. assert (W : Forall width_ok (map (CE 15 7) l)).
  { rewrite Forall_map. eapply Forall_impl; [|exact H]. intros f Hf. cbn [width_ok]. apply fmt7_le. assumption. }
  split; [|assumption]. destruct (exists_last Hn) as (r & f & ->). unfold flts. rewrite map_app in *. cbn [map] in *. apply okline_nums.
  - rewrite Forall_forall. intros c Hc. apply in_app_or in Hc as [Hc|[<-|[]]]; [apply in_map_iff in Hc as (x & <- & _)|]; cbn [num_cell]; lia.
  - assumption.
  - cbn [last_ok]. lia.
Qed.
Lemma dirs_ok : forall q, wf1858 q -> okline (cells_text (dirs q)) /\ Forall width_ok (dirs q).
Proof.
  intros q (_ & _ & _ & _ & _ & _ & (P1 & L1) & (P2 & L2) & Hne).
  assert (W : Forall width_ok (dirs q)) by (repeat (constructor; [first [assumption|cbn; lia]|]); constructor).
  split; [|assumption]. apply okline_plain.
  - apply plain_cells. constructor; [assumption|]. constructor; [split; [reflexivity|constructor]|]. constructor; [assumption|constructor].
  - intros [p Hp]. apply Hne. unfold cells_text, dirs in Hp. cbn [map concat cell_text] in Hp. rewrite app_nil_r in Hp.
    set (x := ljust 4 (q_resp q) ++ rjust 2 []) in *. rewrite app_assoc in Hp. fold x in Hp.
    change TAG with (lit "  " ++ lit "  -1") in Hp. rewrite (app_assoc p) in Hp.
    assert (El : ljust 4 (q_ref q) = lit "  -1").
    { assert (Hl : length (ljust 4 (q_ref q)) = 4) by (apply ljust_length; assumption).
      assert (Hx : length x = length (p ++ lit "  ")).
      { assert (E := f_equal (@length N) Hp). rewrite !app_length in *. change (length (lit "  -1")) with 4 in E. lia. }
      assert (E := f_equal (skipn (length x)) Hp). rewrite skipn_app_exact in E by reflexivity. rewrite Hx in E at 1. rewrite skipn_app_exact in E by reflexivity. exact E. }
    unfold ljust in El. destruct (4 - length (q_ref q)) as [|k] eqn:Ek; [cbn [repeat] in El; rewrite app_nil_r in El; exact El|].
    exfalso. replace (S k) with (k + 1) in El by lia. rewrite repeat_app, app_assoc in El. change (lit "  -1") with (lit "  -" ++ [49%N]) in El.
    apply app_inj_tail in El as [_ El]. discriminate.
  - rewrite cells_length by assumption. cbn. lia.
Qed.

Lemma list9 : forall A (l : list A), length l = 9 -> exists a b c d e f g h i, l = [a; b; c; d; e; f; g; h; i].
Proof. intros A [|a [|b [|c [|d [|e [|f [|g [|h [|i [|? ?]]]]]]]]]] H; try discriminate. do 9 eexists. reflexivity. Qed.
Lemma list5 : forall A (l : list A), length l = 5 -> exists a b c d e, l = [a; b; c; d; e].
Proof. intros A [|a [|b [|c [|d [|e [|? ?]]]]]] H; try discriminate. do 5 eexists. reflexivity. Qed.
Lemma list4 : forall A (l : list A), length l = 4 -> exists a b c d, l = [a; b; c; d].
Proof. intros A [|a [|b [|c [|d [|? ?]]]]] H; try discriminate. do 4 eexists. reflexivity. Qed.

(** The first record: written in columns of 10, read in columns of 12. *)
Lemma rec1858_read : forall q names, wf1858 q -> length names = 6 ->
  parse_header_line (cells_text (rec1858 q) ++ [LF]) 6 [12;12;12;12;12;12] [2;2;2;-1;-1;-1]%Z names
  = Ok (put_all [] (combine names [Some (VInt (q_rec q)); Some (VInt (q_oct q)); Some (VInt (q_run q)); None; None; None])).
Proof.
  intros q names (W1 & W2 & W3 & _) Hn.
  assert (L1 : length (dec_Z (q_rec q)) <= 10) by (apply fits_le; [lia|assumption]).
  assert (L2 : length (dec_Z (q_oct q)) <= 8) by (apply fits_le; [lia|assumption]).
  assert (L3 : length (dec_Z (q_run q)) <= 6) by (apply fits_le; [lia|assumption]).
  apply (header_segs [rjust 10 (dec_Z (q_rec q)) ++ repeat blank 2; rjust 8 (dec_Z (q_oct q)) ++ repeat blank 4; rjust 6 (dec_Z (q_run q)) ++ repeat blank 6;
    rjust 4 (dec_Z 0) ++ repeat blank 8; rjust 2 (dec_Z 0) ++ rjust 10 (dec_Z 0)] [LF] _ 6 _ [12]).
  - unfold rec1858, cells_text. cbn [map concat cell_text].
    change (rjust 10 (dec_Z (q_oct q))) with (rjust (2 + 8) (dec_Z (q_oct q))). rewrite (rjust_split 8 2 (dec_Z (q_oct q))) by assumption.
    change (rjust 10 (dec_Z (q_run q))) with (rjust (4 + 6) (dec_Z (q_run q))). rewrite (rjust_split 6 4 (dec_Z (q_run q))) by assumption.
    change (rjust 10 (dec_Z 0)) with (repeat blank 6 ++ rjust 4 (dec_Z 0)) at 1.
    change (rjust 10 (dec_Z 0)) with (repeat blank 8 ++ rjust 2 (dec_Z 0)) at 1.
    rewrite !app_nil_r. rewrite <- !app_assoc. reflexivity.
  - reflexivity.
  - cbn [map]. rewrite !app_length, !rjust_length by (assumption || (cbn; lia)). reflexivity.
  - reflexivity.
  - reflexivity.
  - exact Hn.
  - cbn. lia.
  - cbn [map]. rewrite !strip_tail. cbn [length repeat app combine]. repeat (constructor; [cbn [fst snd]; first [apply fv_int|apply fv_none]|]). constructor.
Qed.

Lemma ints1858_read : forall l, Forall (fits 6) l -> length l = 9 ->
  parse_header_line (cells_text (map (CI 6) (l ++ [0; 0; 0]%Z)) ++ [LF]) 12 [6;6;6;6;6;6;6;6;6;6;6;6] [2;2;2;2;2;2;2;2;2;-1;-1;-1]%Z (keys1858 ++ [""; ""; ""]%string)
  = Ok (map (fun kz => (KS (fst kz), VInt (snd kz))) (combine keys1858 l)).
Proof.
  intros l H Hl.
  assert (W : Forall width_ok (map (CI 6) (l ++ [0; 0; 0]%Z))).
  { rewrite Forall_map. apply Forall_app. split; [eapply Forall_impl; [|exact H]; intros z Hz; apply fits_le; [lia|assumption]|]. repeat (constructor; [cbn; lia|]). constructor. }
  destruct (list9 _ l Hl) as (a & b & c & d & e & f & g & h & i & ->).
  hdr_cells (map (CI 6) ([a; b; c; d; e; f; g; h; i] ++ [0; 0; 0]%Z)) (@nil nat)
    [Some (VInt a); Some (VInt b); Some (VInt c); Some (VInt d); Some (VInt e); Some (VInt f); Some (VInt g); Some (VInt h); Some (VInt i); None; None; None] W.
  reflexivity.
Qed.

Lemma cells_args_list : forall A (P : pyval -> A -> Prop) (C : A -> cell) d ks l rest tl,
  (forall v a r t, P v a -> cells_args r t -> cells_args (C a :: r) (Ok v :: t)) ->
  Forall2 (fun k a => has P d k a) ks l -> cells_args rest tl -> cells_args (map C l ++ rest) (map (ix d) ks ++ tl).
Proof.
  intros A P C d ks l rest tl HC H Hr. induction H as [|k a ks l Hk _ IH]; [assumption|]. cbn [map app].
  destruct (has_get _ _ _ _ _ Hk) as (v & -> & Hv). apply HC; assumption.
Qed.
Lemma ca_int : forall w v a r t, as_int v a -> cells_args r t -> cells_args (CI w a :: r) (Ok v :: t).
Proof. intros w v a r t H Hr. cbn [cells_args]. split; [exact H|assumption]. Qed.
Lemma ca_flt : forall w p v a r t, as_flt v a -> cells_args r t -> cells_args (CE w p a :: r) (Ok v :: t).
Proof. intros w p v a r t H Hr. cbn [cells_args]. split; [exact H|assumption]. Qed.

Lemma set1858 : forall c m fd ho d q, repr1858 d q -> wf1858 q -> text_set c m fd ho d 1858 (type_hdr 1858) (lines1858 q) (read1858 q).
Proof.
  intros c m fd ho d q (Hty & Hdat & R1 & R2 & R3 & R4 & R5 & R6 & R7 & R8) Hw. assert (Hw' := Hw).
  destruct Hw' as (W1 & W2 & W3 & W4 & W5 & W6 & W7 & W8 & W9).
  destruct (type_hdr_ok 1858 ltac:(lia)) as [Ht Hh].
  assert (Li : length (q_ints q) = 9) by (rewrite <- (Forall2_len _ _ _ _ _ R4); reflexivity).
  assert (Lz : length (q_z q) = 4) by (rewrite <- (Forall2_len _ _ _ _ _ R5); reflexivity).
  assert (Lu : length (q_user q) = 5) by (rewrite <- (Forall2_len _ _ _ _ _ R6); reflexivity).
  destruct (flts_ok (q_z q ++ [f_zero])) as [Oz Wz]; [destruct (q_z q); discriminate|rewrite app_length; cbn; lia|apply Forall_app; auto|].
  destruct (flts_ok (q_user q)) as [Ou Wu]; [destruct (q_user q); discriminate|lia|assumption|].
  destruct (flts_ok (repeat f_zero 5)) as [Oo Wo]; [discriminate|cbn; lia|repeat constructor|].
  destruct (dirs_ok q Hw) as [Od Wd].
  assert (Hok : Forall okline (type_hdr 1858 :: lines1858 q)).
  { constructor; [assumption|]. unfold lines1858. constructor; [|constructor; [|repeat (constructor; [assumption|]); constructor; [|constructor]]].
    - apply (okline_cells (map (CI 10) [q_rec q; q_oct q; q_run q; 0; 0]%Z) (CI 10 0)).
      + repeat constructor.
      + constructor; [cbn [width_ok]; apply fits_le; [lia|assumption]|].
        constructor; [cbn [width_ok]; apply Nat.le_trans with 8; [apply fits_le; [lia|assumption]|lia]|].
        constructor; [cbn [width_ok]; apply Nat.le_trans with 6; [apply fits_le; [lia|assumption]|lia]|]. repeat (constructor; [cbn; lia|]). constructor.
      + cbn [last_ok]. split; [lia|discriminate].
      + cbn. lia.
    - change [0; 0; 0]%Z with ([0; 0] ++ [0])%Z. rewrite app_assoc, map_app. apply okline_nums.
      + rewrite Forall_forall. intros x Hx. apply in_app_or in Hx as [Hx|[<-|[]]]; [apply in_map_iff in Hx as (y & <- & _)|]; cbn [num_cell]; lia.
      + apply Forall_app. split; [|repeat (constructor; [cbn; lia|]); constructor]. rewrite Forall_map.
        apply Forall_app. split; [|repeat (constructor; [cbn; lia|]); constructor].
        eapply Forall_impl; [|exact W4]. intros z Hz. apply fits_le; [lia|assumption].
      + cbn [last_ok]. split; [lia|discriminate].
    - apply text_ok_line. split; [apply plain_ascii; reflexivity|reflexivity]. }
  constructor; [|assumption|assumption|].
  - rewrite (set_items_text c m fd d (VInt 1858) Hty Hdat). change (write_dispatch c m fd (VInt 1858) d) with (write1858 d). unfold write1858. change ints1858 with keys1858.
    cbn [wp_items].
    rewrite hdr_writes. unfold lines1858. rewrite !unlines_cons'.
    eapply writes_eq.
    { apply writes_consr; [reflexivity|].
      apply (writes_line _ _ (rec1858 q)); [reflexivity|cbn [rec1858 map cells_args app]; repeat split; auto using has_gi; reflexivity|].
      apply (writes_line _ _ (map (CI 6) (q_ints q ++ [0; 0; 0]%Z))).
      { destruct (list9 _ _ Li) as (? & ? & ? & ? & ? & ? & ? & ? & ? & ->). reflexivity. }
      { rewrite map_app, <- app_assoc. eapply cells_args_list; [apply ca_int|exact R4|]. cbn. repeat split. }
      apply (writes_line _ _ (map (CE 15 7) (q_z q ++ [f_zero]))).
      { destruct (list4 _ _ Lz) as (? & ? & ? & ? & ->). reflexivity. }
      { rewrite map_app, <- app_assoc. change [ix d "z_rpm_value"; ix d "z_time_value"; ix d "z_order_value"; ix d "num_of_samples"; I 0] with (map (ix d) zs1858 ++ [I 0]).
        eapply cells_args_list; [apply ca_flt|exact R5|]. cbn. repeat split. }
      apply (writes_line _ _ (map (CE 15 7) (q_user q))).
      { destruct (list5 _ _ Lu) as (? & ? & ? & ? & ? & ->). reflexivity. }
      { rewrite <- (app_nil_r [ix d "user_value_1"; _; _; _; _]).
        change [ix d "user_value_1"; ix d "user_value_2"; ix d "user_value_3"; ix d "user_value_4"; ix d "exponential_window_damping_factor"] with (map (ix d) us1858).
        eapply cells_args_list; [apply ca_flt|exact R6|]. cbn. repeat split. }
      apply (writes_line _ _ (map (CE 15 7) (repeat f_zero 5))); [reflexivity|cbn [map repeat app cells_args]; repeat split|].
      apply (writes_line _ _ (dirs q)); [reflexivity|cbn [dirs cells_args app]; repeat split; auto using has_gs|].
      apply (writes_line _ _ [CS true 80 (lit "NONE")]); [reflexivity|cbn [cells_args app]; repeat split|].
      exact end_writes. }
    rewrite !cells_one. unfold type_hdr. cbn [cell_text unlines map concat app]. rewrite <- !app_assoc. reflexivity.
  - intros block _ Hb. unfold extract_set. rewrite Hb. cbn [Z.eqb Pos.eqb]. unfold extract1858.
    rewrite split_text by assumption. cbv beta iota zeta. unfold lines1858, recs1858, H. cbn [map firstn].
    cbn [header_recs h_line h_min h_widths h_types h_names ln nth_error of_option rbind].
    rewrite (rec1858_read q) by (assumption || reflexivity). cbn [rbind].
    change ints1858 with keys1858. rewrite ints1858_read by assumption. cbn [rbind].
    destruct (list4 _ _ Lz) as (z1 & z2 & z3 & z4 & Ez). destruct (list5 _ _ Lu) as (u1 & u2 & u3 & u4 & u5 & Eu). destruct (list9 _ _ Li) as (i1 & i2 & i3 & i4 & i5 & i6 & i7 & i8 & i9 & Ei).
    unfold read1858. rewrite Ez, Eu, Ei in *. unfold flts.
    hdr_cells (map (CE 15 7) ([z1; z2; z3; z4] ++ [f_zero])) (@nil nat) [Some (VFloat (rd 7 z1)); Some (VFloat (rd 7 z2)); Some (VFloat (rd 7 z3)); Some (VFloat (rd 7 z4)); None] Wz.
    hdr_cells (map (CE 15 7) [u1; u2; u3; u4; u5]) (@nil nat) [Some (VFloat (rd 7 u1)); Some (VFloat (rd 7 u2)); Some (VFloat (rd 7 u3)); Some (VFloat (rd 7 u4)); Some (VFloat (rd 7 u5))] Wu.
    hdr_cells (dirs q) (@nil nat) [Some (VStr (strip (q_resp q))); None; Some (VStr (strip (q_ref q)))] Wd.
    reflexivity.
Qed.

(* ------------------------------------------------------------------ *)
(** ** 2400 *)

Record mhead := { k_uid : Z; k_et : Z; k_es : Z; k_ver : Z; k_name : str; k_part : str; k_mask : list Z;
  k_date : str; k_time : str; k_vid : Z; k_iid : Z; k_ppu : Z; k_opt : Z }.
Definition repr2400 (d : dict) (h : mhead) : Prop :=
  dget d (KS "type") = Some (VInt 2400) /\ dget d (KS "data") = None /\
  has_or as_int d "model_uid" (k_uid h) 0%Z /\ has_or as_int d "entity_type" (k_et h) 0%Z /\
  has_or as_int d "entity_subtype" (k_es h) 0%Z /\ has_or as_int d "version_number" (k_ver h) 0%Z /\
  has_or as_txt d "entity_name" (k_name h) [] /\ has_or as_txt d "part_number" (k_part h) [] /\
  has_or (seq_of as_int) d "status_mask" (k_mask h) (repeat 0%Z 32) /\
  has_or as_txt d "date" (k_date h) [] /\ has_or as_txt d "time" (k_time h) [] /\
  has_or as_int d "idm_version_id" (k_vid h) 0%Z /\ has_or as_int d "idm_item_id" (k_iid h) 0%Z /\
  has_or as_int d "primary_parent_uid" (k_ppu h) 0%Z /\ has_or as_int d "optimization_switches" (k_opt h) 0%Z.
Definition wf2400 (h : mhead) : Prop :=
  fits 12 (k_uid h) /\ fits 6 (k_et h) /\ fits 6 (k_es h) /\ fits 12 (k_ver h) /\ k_ver h <> (-1)%Z /\
  text_ok (k_name h) /\ text_ok (k_part h) /\ length (k_mask h) = 32 /\ Forall (fits 2) (k_mask h) /\
  short_plain 10 (k_date h) /\ short_plain 10 (k_time h) /\
  fits 12 (k_vid h) /\ fits 12 (k_iid h) /\ fits 12 (k_ppu h) /\ k_ppu h <> (-1)%Z /\ fits 12 (k_opt h) /\ k_opt h <> (-1)%Z.
Definition read2400 (h : mhead) : dict :=
  [(KS "type", VInt 2400); (KS "model_uid", VInt (k_uid h)); (KS "entity_type", VInt (k_et h)); (KS "entity_subtype", VInt (k_es h));
   (KS "version_number", VInt (k_ver h)); (KS "entity_name", VStr (strip (firstn 80 (k_name h))));
   (KS "part_number", VStr (strip (firstn 80 (k_part h)))); (KS "status_mask", VList (map VInt (k_mask h)));
   (KS "date", VStr (strip (k_date h))); (KS "time", VStr (strip (k_time h)));
   (KS "idm_version_id", VInt (k_vid h)); (KS "idm_item_id", VInt (k_iid h)); (KS "primary_parent_uid", VInt (k_ppu h));
   (KS "optimization_switches", VInt (k_opt h))].

Definition ids2400 (h : mhead) : list cell := [CI 12 (k_uid h); CI 6 (k_et h); CI 6 (k_es h); CI 12 (k_ver h)].
Definition dts2400 (h : mhead) : list cell := [CS true 10 (k_date h); CS true 10 (k_time h); CI 12 (k_vid h); CI 12 (k_iid h); CI 12 (k_ppu h)].
Definition mask_text (l : list Z) : str := cells_text (map (CI 2) l).
Definition lines2400 (h : mhead) : list str :=
  [cells_text (ids2400 h); ljust 80 (k_name h); ljust 80 (k_part h); mask_text (k_mask h); cells_text (dts2400 h); cells_text [CI 12 (k_opt h)]].

Lemma mask_ok : forall l, length l = 32 -> Forall (fits 2) l -> okline (mask_text l).
Proof.
  intros l Hl H. assert (W : Forall width_ok (map (CI 2) l)).
  { rewrite Forall_map. eapply Forall_impl; [|exact H]. intros z Hz. apply fits_le; [lia|assumption]. }
  apply okline_plain.
  - apply plain_cells. rewrite Forall_map, Forall_forall. intros z _. exact Logic.I.
  - destruct (exists_last (l := l)) as (r & b & E); [intros ->; discriminate|]. destruct (exists_last (l := r)) as (q & a & E').
    { intros ->. subst l. discriminate. }
    subst. unfold mask_text. rewrite !map_app, !cells_text_app. cbn [map]. rewrite !cells_one. cbn [cell_text].
    destruct (nonws_last_rjust 2 (dec_Z a) (dec_Z_nonws a)) as (p & x & -> & Hx).
    assert (Lb : length (rjust 2 (dec_Z b)) = 2).
    { apply rjust_length. apply fits_le; [lia|]. rewrite Forall_forall in H. apply H. apply in_or_app. right. left. reflexivity. }
    intros [t Ht]. apply Hx. change TAG with ([32; 32; 32; 32] ++ [45; 49])%N in Ht. rewrite (app_assoc t) in Ht.
    assert (E : (cells_text (map (CI 2) q) ++ p ++ [x]) = t ++ [32; 32; 32; 32]%N).
    { assert (El := f_equal (@length N) Ht). rewrite app_length in El. rewrite (app_length (t ++ _)) in El. rewrite Lb in El. cbn [length] in El.
      assert (Ef := f_equal (firstn (length (t ++ [32; 32; 32; 32]%N))) Ht). rewrite (firstn_app_exact _ _ (t ++ _)) in Ef by reflexivity.
      rewrite firstn_app_exact in Ef by lia. exact Ef. }
    rewrite app_assoc in E. change [32; 32; 32; 32]%N with ([32; 32; 32] ++ [32])%N in E. rewrite (app_assoc t) in E. apply app_inj_tail in E as [_ E]. exact E.
  - unfold mask_text. rewrite cells_length by assumption. rewrite map_map. cbn [cell_width].
    assert (E : forall k : list Z, list_sum (map (fun _ => 2) k) = 2 * length k).
    { unfold list_sum. induction k as [|y k IH]; [reflexivity|]. cbn [map fold_right length]. rewrite IH. lia. }
    rewrite E, Hl. lia.
Qed.
Lemma mask_read : forall l, length l = 32 -> Forall (fits 2) l -> parse_ints (chop 2 32 (mask_text l ++ [LF])) = Ok l.
Proof.
  intros l Hl H.
  assert (E : chop 2 32 (mask_text l ++ [LF]) = map (fun z => rjust 2 (dec_Z z)) l).
  { rewrite <- Hl. clear Hl. unfold mask_text. induction H as [|z l Hz _ IH]; [reflexivity|]. cbn [map length chop]. rewrite cells_text_cons.
    rewrite <- app_assoc. assert (L : length (cell_text (CI 2 z)) = 2) by (apply rjust_length, fits_le; [lia|assumption]).
    rewrite firstn_app_exact, skipn_app_exact by assumption. rewrite IH. reflexivity. }
  rewrite E. unfold parse_ints, rmap. rewrite map_map. rewrite (rseq_map_ok _ _ _ (fun z => z)); [rewrite map_id; reflexivity|].
  intros z _. apply py_int_rjust.
Qed.

Lemma set2400 : forall c m fd ho d h, repr2400 d h -> wf2400 h -> text_set c m fd ho d 2400 (type_hdr 2400) (lines2400 h) (read2400 h).
Proof.
  intros c m fd ho d h (Hty & Hdat & R1 & R2 & R3 & R4 & R5 & R6 & R7 & R8 & R9 & R10 & R11 & R12 & R13)
    (W1 & W2 & W3 & W4 & W5 & W6 & W7 & W8 & W9 & (P1 & L1) & (P2 & L2) & W12 & W13 & W14 & W15 & W16 & W17).
  destruct (type_hdr_ok 2400 ltac:(lia)) as [Ht Hh].
  assert (Wi : Forall width_ok (ids2400 h)) by (repeat (constructor; [cbn [width_ok]; apply fits_le; [lia|assumption]|]); constructor).
  assert (Wd : Forall width_ok (dts2400 h)).
  { constructor; [assumption|]. constructor; [assumption|]. repeat (constructor; [cbn [width_ok]; apply fits_le; [lia|assumption]|]). constructor. }
  assert (Wo : Forall width_ok [CI 12 (k_opt h)]) by (repeat (constructor; [cbn [width_ok]; apply fits_le; [lia|assumption]|]); constructor).
  assert (Hok : Forall okline (type_hdr 2400 :: lines2400 h)).
  { constructor; [assumption|]. unfold lines2400. constructor; [|constructor; [|constructor; [|constructor; [|constructor; [|constructor; [|constructor]]]]]].
    - apply (okline_cells [CI 12 (k_uid h); CI 6 (k_et h); CI 6 (k_es h)] (CI 12 (k_ver h))); [repeat constructor|assumption|cbn [last_ok]; split; [lia|assumption]|cbn; lia].
    - apply text_ok_line. assumption.
    - apply text_ok_line. assumption.
    - apply mask_ok; assumption.
    - apply (okline_cells [CS true 10 (k_date h); CS true 10 (k_time h); CI 12 (k_vid h); CI 12 (k_iid h)] (CI 12 (k_ppu h)));
        [constructor; [assumption|]; constructor; [assumption|]; repeat constructor|assumption|cbn [last_ok]; split; [lia|assumption]|cbn; lia].
    - apply (okline_cells [] (CI 12 (k_opt h))); [repeat constructor|assumption|cbn [last_ok]; split; [lia|assumption]|cbn; lia]. }
  constructor; [|assumption|assumption|].
  - rewrite (set_items_text c m fd d (VInt 2400) Hty Hdat). change (write_dispatch c m fd (VInt 2400) d) with (write2400 d). unfold write2400.
    cbn [wp_items].
    assert (Q7 : has (seq_of as_int) (opt_fields d defaults2400) "status_mask" (k_mask h)).
    { eapply has_opt_or; [exact R7|reflexivity|]. exists (repeat (VInt 0) 32). split; [reflexivity|]. repeat constructor. }
    lift R1; lift R2; lift R3; lift R4; lift R5; lift R6; lift R8; lift R9; lift R10; lift R11; lift R12; lift R13.
    set (d1 := opt_fields d _) in *. clearbody d1.
    rewrite hdr_writes. unfold lines2400. rewrite !unlines_cons'.
    destruct (has_get _ _ _ _ _ Q7) as (v & -> & vs & Hv & H2). cbn [rbind]. rewrite Hv. cbn [rbind].
    assert (Em : rmap (fun e => pct "%2i" [Ok e]) vs = Ok (map (fun z => rjust 2 (dec_Z z)) (k_mask h))).
    { apply rmap_Forall2. clear -H2. induction H2 as [|x z vs zs Hx _ IH]; cbn [map]; constructor; [|assumption].
      rewrite (pct_cells _ _ [CI 2 z]); [rewrite cells_one; reflexivity|reflexivity|]. cbn [cells_args]. split; [exact Hx|exact Logic.I]. }
    rewrite Em. cbn [rbind].
    rewrite (pct_line "%s\n" _ [CS false 0 (concat (map (fun z => rjust 2 (dec_Z z)) (k_mask h)))]); [|reflexivity|cbn [cells_args app]; repeat split].
    rewrite (cells_one (CS false 0 _)). cbn [cell_text]. rewrite (rjust_full 0) by lia.
    eapply writes_eq.
    { apply writes_consr; [reflexivity|].
      apply (writes_line _ _ (ids2400 h)); [reflexivity|cbn [ids2400 cells_args app]; auto 10 using has_gi|].
      apply (writes_line _ _ [CS true 80 (k_name h)]); [reflexivity|cbn [cells_args app]; auto using has_gs|].
      apply (writes_line _ _ [CS true 80 (k_part h)]); [reflexivity|cbn [cells_args app]; auto using has_gs|].
      apply writes_consr; [reflexivity|].
      apply (writes_line _ _ (dts2400 h)); [reflexivity|cbn [dts2400 cells_args app]; auto 10 using has_gi, has_gs|].
      apply (writes_line _ _ [CI 12 (k_opt h)]); [reflexivity|cbn [cells_args app]; auto using has_gi|].
      exact end_writes. }
    assert (Et : mask_text (k_mask h) = concat (map (fun z => rjust 2 (dec_Z z)) (k_mask h))) by (unfold mask_text, cells_text; rewrite map_map; reflexivity).
    rewrite Et. clear.
    rewrite !cells_one. unfold type_hdr. cbn [cell_text unlines map concat app]. rewrite <- !app_assoc. reflexivity.
  - intros block _ Hb. unfold extract_set. rewrite Hb. cbn [Z.eqb Pos.eqb]. unfold extract2400.
    rewrite split_text by assumption. cbv beta iota zeta. unfold lines2400, H. cbn [map].
    cbn [header_recs h_line h_min h_widths h_types h_names ln nth_error of_option rbind].
    hdr_cells (ids2400 h) (@nil nat) [Some (VInt (k_uid h)); Some (VInt (k_et h)); Some (VInt (k_es h)); Some (VInt (k_ver h))] Wi.
    rewrite !header_str80. cbn [rbind]. rewrite mask_read by assumption. cbn [rbind].
    hdr_cells (dts2400 h) (@nil nat) [Some (VStr (strip (k_date h))); Some (VStr (strip (k_time h))); Some (VInt (k_vid h)); Some (VInt (k_iid h)); Some (VInt (k_ppu h))] Wd.
    hdr_cells [CI 12 (k_opt h)] (@nil nat) [Some (VInt (k_opt h))] Wo.
    reflexivity.
Qed.
