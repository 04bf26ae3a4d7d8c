(** Formatted cells of a text line: what [%] prints, what the readers see. *)
From Verif Require Import PyBase PyNum PyVal Utf8 Tools DsNodes DsHeaders Uff Facts IntFacts FloatFacts DecFacts FloatText DictFacts Scan Utf8Facts Lines.
From Coq Require Import Lia.
Open Scope nat_scope.
Open Scope list_scope.

(* ------------------------------------------------------------------ *)
(** ** Values looked up by a writer *)

Definition gi (r : result pyval) (z : Z) : Prop := (do v <- r ;; fmt_int_arg v) = Ok z.
Definition gs (r : result pyval) (s : str) : Prop := (do v <- r ;; to_str v) = Ok s.
Definition gf (r : result pyval) (f : float) : Prop := (do v <- r ;; fmt_float_arg v) = Ok f.

Inductive cell :=
| CI (w : nat) (z : Z)
| CS (lf : bool) (w : nat) (s : str)
| CE (w p : nat) (f : float)
| CL (c : N).
Definition cell_spec (c : cell) : fspec :=
  match c with CI w _ => FInt w | CS lf w _ => FStr lf w | CE w p _ => FExp w p | CL c => FLit c end.
Definition cell_text (c : cell) : str :=
  match c with
  | CI w z => rjust w (dec_Z z)
  | CS true w s => ljust w s
  | CS false w s => rjust w s
  | CE w p f => rjust w (fmt_e false p f)
  | CL c => [c]
  end.
Definition cells_text (l : list cell) : str := concat (map cell_text l).
Fixpoint cells_args (l : list cell) (args : list (result pyval)) : Prop :=
  match l, args with
  | [], [] => True
  | CL _ :: r, _ => cells_args r args
  | CI _ z :: r, a :: args' => gi a z /\ cells_args r args'
  | CS _ _ s :: r, a :: args' => gs a s /\ cells_args r args'
  | CE _ _ f :: r, a :: args' => gf a f /\ cells_args r args'
  | _, _ => False
  end.

Lemma gi_inv : forall r z, gi r z -> exists v, r = Ok v /\ fmt_int_arg v = Ok z.
Proof. intros [v|ex] z H; [|discriminate]. exists v. auto. Qed.
Lemma gs_inv : forall r z, gs r z -> exists v, r = Ok v /\ to_str v = Ok z.
Proof. intros [v|ex] z H; [|discriminate]. exists v. auto. Qed.
Lemma gf_inv : forall r z, gf r z -> exists v, r = Ok v /\ fmt_float_arg v = Ok z.
Proof. intros [v|ex] z H; [|discriminate]. exists v. auto. Qed.

Lemma fmt_cells : forall l args, cells_args l args ->
  exists vs, rseq args = Ok vs /\ fmt_specs (map cell_spec l) vs = Ok (cells_text l).
Proof.
  induction l as [|c l IH]; intros args H.
  - destruct args; [|contradiction]. exists []. split; reflexivity.
  - destruct c as [w z|lf w s|w p f|c].
    + destruct args as [|a args]; [contradiction|]. destruct H as [Ha H]. apply gi_inv in Ha as (v & -> & Hv).
      destruct (IH args H) as (vs & Hvs & Hf). exists (v :: vs). cbn [rseq rbind]. rewrite Hvs. split; [reflexivity|].
      cbn [map cell_spec fmt_specs]. rewrite Hv. cbn [rbind]. rewrite Hf. reflexivity.
    + destruct args as [|a args]; [contradiction|]. destruct H as [Ha H]. apply gs_inv in Ha as (v & -> & Hv).
      destruct (IH args H) as (vs & Hvs & Hf). exists (v :: vs). cbn [rseq rbind]. rewrite Hvs. split; [reflexivity|].
      cbn [map cell_spec fmt_specs]. destruct lf; rewrite Hv; cbn [rbind]; rewrite Hf; reflexivity.
    + destruct args as [|a args]; [contradiction|]. destruct H as [Ha H]. apply gf_inv in Ha as (v & -> & Hv).
      destruct (IH args H) as (vs & Hvs & Hf). exists (v :: vs). cbn [rseq rbind]. rewrite Hvs. split; [reflexivity|].
      cbn [map cell_spec fmt_specs]. rewrite Hv. cbn [rbind]. rewrite Hf. reflexivity.
    + destruct (IH args) as (vs & Hvs & Hf). { destruct args; exact H. }
      exists vs. split; [assumption|]. cbn [map cell_spec fmt_specs]. rewrite Hf. reflexivity.
Qed.
Lemma pct_cells : forall f args l, parse_fmt SNorm f = map cell_spec l -> cells_args l args -> pct f args = Ok (cells_text l).
Proof. intros f args l Hf H. destruct (fmt_cells l args H) as (vs & Hv & Hs). unfold pct. rewrite Hv, Hf. exact Hs. Qed.
Lemma cells_text_app : forall a b, cells_text (a ++ b) = cells_text a ++ cells_text b.
Proof. intros a b. unfold cells_text. rewrite map_app, concat_app. reflexivity. Qed.
Lemma cells_text_cons : forall c l, cells_text (c :: l) = cell_text c ++ cells_text l.
Proof. reflexivity. Qed.
(** A line: cells, then the line break. *)
Lemma pct_line : forall f args l, parse_fmt SNorm f = map cell_spec (l ++ [CL LF]) -> cells_args (l ++ [CL LF]) args ->
  pct f args = Ok (cells_text l ++ [LF]).
Proof. intros f args l H1 H2. rewrite (pct_cells f args (l ++ [CL LF])) by assumption. rewrite cells_text_app. reflexivity. Qed.

Lemma writes_line : forall f args l rest t,
  parse_fmt SNorm f = map cell_spec (l ++ [CL LF]) -> cells_args (l ++ [CL LF]) args -> writes rest t ->
  writes (txt f args :: rest) ((cells_text l ++ [LF]) ++ t).
Proof. intros f args l rest t H1 H2 H3. unfold txt. rewrite (pct_line f args l) by assumption. constructor. assumption. Qed.

Lemma hdr_writes : forall n, hdr_lines n = WTxt (Ok (TLINE ++ (rjust 6 (dec_Z n) ++ rjust 74 (lit " ")) ++ [LF])).
Proof.
  intro n. unfold hdr_lines, txt.
  rewrite (pct_cells _ _ [CI 6 (-1); CL LF; CI 6 n; CS false 74 (lit " "); CL LF]).
  - unfold cells_text. cbn [map cell_text concat]. rewrite app_nil_r, <- !app_assoc. reflexivity.
  - reflexivity.
  - cbn [cells_args]. unfold gi, gs. cbn. auto.
Qed.
Lemma end_writes : writes [end_line] TLINE.
Proof. apply writes_one. reflexivity. Qed.
Definition type_hdr (n : Z) : str := rjust 6 (dec_Z n) ++ rjust 74 (lit " ").

Lemma unlines_cons' : forall l ls, unlines (l :: ls) = (l ++ [LF]) ++ unlines ls.
Proof. reflexivity. Qed.

(* ------------------------------------------------------------------ *)
(** ** Fixed columns *)

Lemma cut_segs : forall segs tail ws, forallb is_ws tail = true ->
  cut_fields (concat segs ++ tail) (map (@length N) segs ++ ws) = map strip segs ++ cut_fields tail ws.
Proof.
  induction segs as [|s segs IH]; intros tail ws H; [reflexivity|].
  cbn [concat map cut_fields app]. rewrite <- app_assoc. rewrite firstn_app_exact, skipn_app_exact by reflexivity.
  f_equal. apply IH. assumption.
Qed.
Lemma strip_all_ws : forall s, forallb is_ws s = true -> strip s = [].
Proof. intros s H. unfold strip. rewrite <- (app_nil_r s). rewrite strip_by_pre by assumption. reflexivity. Qed.
Lemma forallb_firstn : forall A (f : A -> bool) n l, forallb f l = true -> forallb f (firstn n l) = true.
Proof.
  intros A f n. induction n as [|n IH]; intros [|x l] H; auto. cbn in *. apply andb_true_iff in H as [-> H]. cbn. auto.
Qed.
Lemma forallb_skipn : forall A (f : A -> bool) n l, forallb f l = true -> forallb f (skipn n l) = true.
Proof. intros A f n. induction n as [|n IH]; intros [|x l] H; auto. cbn in *. apply andb_true_iff in H as [_ H]. auto. Qed.
Lemma cut_ws : forall ws tail, forallb is_ws tail = true -> cut_fields tail ws = repeat [] (length ws).
Proof.
  induction ws as [|w ws IH]; intros tail H; [reflexivity|]. cbn [cut_fields length repeat].
  rewrite strip_all_ws by (apply forallb_firstn; assumption). f_equal. apply IH. apply forallb_skipn. assumption.
Qed.
Lemma extend80_app : forall s, exists n, extend80 s = s ++ repeat blank n.
Proof. intro s. unfold extend80. destruct (Nat.ltb (length s) 80); [eauto|]. exists 0. rewrite app_nil_r. reflexivity. Qed.

(** Fields of a line made of segments of the given widths, white space behind. *)
Lemma cut_line : forall segs tail ws, forallb is_ws tail = true ->
  cut_fields (extend80 (concat segs ++ tail)) (map (@length N) segs ++ ws) = map strip segs ++ repeat [] (length ws).
Proof.
  intros segs tail ws H. destruct (extend80_app (concat segs ++ tail)) as [n ->]. rewrite <- app_assoc.
  assert (Ht : forallb is_ws (tail ++ repeat blank n) = true) by (rewrite forallb_app, H; apply blanks_ws).
  rewrite cut_segs by assumption. rewrite cut_ws by assumption. reflexivity.
Qed.

Fixpoint put_all (d : dict) (l : list (string * option pyval)) : dict :=
  match l with
  | [] => d
  | (k, v) :: r => put_all (put_opt d k v) r
  end.
Lemma mandatory_all : forall names types fields vals,
  Forall2 (fun tf v => field_val (fst tf) (snd tf) = Ok v) (combine types fields) vals -> length names = length vals ->
  forall d, mandatory d (combine names (combine types fields)) = Ok (put_all d (combine names vals)).
Proof.
  intros names types fields vals H. revert names. induction H as [|[t f] v tf vals Hv _ IH]; intros [|k names] Hl d; try discriminate.
  - reflexivity.
  - cbn [combine mandatory put_all fst snd] in *. rewrite Hv. cbn [rbind]. apply IH. cbn in Hl. lia.
Qed.
Lemma optional_all : forall names types fields vals,
  Forall2 (fun tf v => field_val (fst tf) (snd tf) = Ok v) (combine types fields) vals -> length names = length vals ->
  forall d, optional d (combine names (combine types fields)) = Ok (put_all d (combine names vals)).
Proof.
  intros names types fields vals H. revert names. induction H as [|[t f] v tf vals Hv _ IH]; intros [|k names] Hl d; try discriminate.
  - reflexivity.
  - cbn [combine optional put_all fst snd] in *. rewrite Hv. apply IH. cbn in Hl. lia.
Qed.
Lemma put_all_app : forall a b d, put_all d (a ++ b) = put_all (put_all d a) b.
Proof. induction a as [|[k v] a IH]; intros b d; [reflexivity|]. cbn [app put_all]. apply IH. Qed.
Lemma firstn_combine : forall A B n (a : list A) (b : list B), firstn n (combine a b) = combine (firstn n a) (firstn n b).
Proof. intros A B n. induction n as [|n IH]; intros [|x a] [|y b]; auto. cbn [combine firstn]. rewrite IH. reflexivity. Qed.
Lemma skipn_combine : forall A B n (a : list A) (b : list B), skipn n (combine a b) = combine (skipn n a) (skipn n b).
Proof.
  intros A B n. induction n as [|n IH]; intros [|x a] [|y b]; auto; cbn; auto.
  - destruct (skipn n a); reflexivity.
Qed.
Lemma Forall2_firstn : forall A B (P : A -> B -> Prop) n a b, Forall2 P a b -> Forall2 P (firstn n a) (firstn n b).
Proof. intros A B P n. induction n as [|n IH]; intros a b H; [constructor|]. destruct H; cbn; constructor; auto. Qed.
Lemma Forall2_skipn : forall A B (P : A -> B -> Prop) n a b, Forall2 P a b -> Forall2 P (skipn n a) (skipn n b).
Proof. intros A B P n. induction n as [|n IH]; intros a b H; [assumption|]. destruct H; cbn; [constructor|auto]. Qed.

Lemma header_fields : forall line mn widths types names fields vals,
  cut_fields (extend80 line) widths = fields ->
  length fields = length vals -> length types = length vals -> length names = length vals -> mn <= length vals ->
  Forall2 (fun tf v => field_val (fst tf) (snd tf) = Ok v) (combine types fields) vals ->
  parse_header_line line mn widths types names = Ok (put_all [] (combine names vals)).
Proof.
  intros line mn widths types names fields vals Hc Hf Ht Hn Hm H. unfold parse_header_line. rewrite Hc. cbv zeta.
  rewrite (proj2 (Nat.ltb_ge _ _)) by lia. rewrite (proj2 (Nat.ltb_ge (length fields) mn)) by lia.
  rewrite (proj2 (Nat.ltb_ge (length types) _)) by lia. cbn [orb].
  rewrite !firstn_combine, !skipn_combine.
  assert (Hc' : forall n, combine (firstn n types) (firstn n fields) = firstn n (combine types fields)) by (intro; symmetry; apply firstn_combine).
  assert (Hs' : forall n, combine (skipn n types) (skipn n fields) = skipn n (combine types fields)) by (intro; symmetry; apply skipn_combine).
  rewrite (mandatory_all _ _ _ (firstn mn vals)).
  - cbn [rbind]. rewrite (optional_all _ _ _ (skipn mn vals)).
    + rewrite <- put_all_app. f_equal. f_equal. rewrite <- firstn_combine, <- skipn_combine. apply firstn_skipn.
    + rewrite Hs'. apply Forall2_skipn. assumption.
    + rewrite !skipn_length. lia.
  - rewrite Hc'. apply Forall2_firstn. assumption.
  - rewrite !firstn_length. lia.
Qed.
(** Line written as segments and read in the same columns ([ws]: further columns). *)
Lemma header_segs : forall segs tail line mn widths ws types names vals,
  line = concat segs ++ tail -> forallb is_ws tail = true -> widths = map (@length N) segs ++ ws ->
  length segs + length ws = length vals -> length types = length vals -> length names = length vals -> mn <= length vals ->
  Forall2 (fun tf v => field_val (fst tf) (snd tf) = Ok v) (combine types (map strip segs ++ repeat [] (length ws))) vals ->
  parse_header_line line mn widths types names = Ok (put_all [] (combine names vals)).
Proof.
  intros segs tail line mn widths ws types names vals -> Ht -> Hl Hty Hn Hm H.
  eapply header_fields; try eassumption.
  - apply cut_line. assumption.
  - rewrite app_length, map_length, repeat_length. assumption.
Qed.

Lemma fv_int : forall w z, field_val 2 (strip (rjust w (dec_Z z))) = Ok (Some (VInt z)).
Proof. intros w z. rewrite strip_rjust, strip_dec. cbn. rewrite py_int_dec. reflexivity. Qed.
Lemma strip_fmt : forall u p f, strip (fmt_e u p f) = fmt_e u p f.
Proof. intros u p f. apply strip_by_nonws. apply fmt_e_nonws. Qed.
Lemma fv_flt : forall w u p f, field_val 3 (strip (rjust w (fmt_e u p f))) = Ok (Some (VFloat (rd p f))).
Proof. intros w u p f. rewrite strip_rjust, strip_fmt. cbn. rewrite py_float_fmt. reflexivity. Qed.
Lemma fv_strl : forall w s, field_val 1 (strip (ljust w s)) = Ok (Some (VStr (strip s))).
Proof. intros w s. rewrite strip_ljust. reflexivity. Qed.
Lemma fv_strr : forall w s, field_val 1 (strip (rjust w s)) = Ok (Some (VStr (strip s))).
Proof. intros w s. rewrite strip_rjust. reflexivity. Qed.
Lemma fv_none : forall s, field_val (-1) s = Ok None.
Proof. reflexivity. Qed.

(** The line of one string field of 80 columns. *)
Lemma strip_firstn_ljust : forall s n, strip (firstn 80 ((s ++ repeat blank (80 - length s)) ++ n)) = strip (firstn 80 s).
Proof.
  intros s n. destruct (Nat.le_gt_cases (length s) 80) as [H|H].
  - rewrite firstn_app_exact by (rewrite app_length, repeat_length; lia). rewrite (firstn_short _ 80 s) by assumption.
    apply (strip_by_post is_ws). apply blanks_ws.
  - replace (80 - length s) with 0 by lia. cbn [repeat]. rewrite app_nil_r. rewrite firstn_app.
    replace (80 - length s) with 0 by lia. rewrite firstn_O, app_nil_r. reflexivity.
Qed.
Lemma header_str80 : forall s k, parse_header_line (ljust 80 s ++ [LF]) 1 [80] [1%Z] [k] = Ok [(KS k, VStr (strip (firstn 80 s)))].
Proof.
  intros s k. rewrite (header_fields _ _ _ _ _ [strip (firstn 80 s)] [Some (VStr (strip (firstn 80 s)))]); try reflexivity.
  - cbn [cut_fields]. destruct (extend80_app (ljust 80 s ++ [LF])) as [n ->]. rewrite <- app_assoc. unfold ljust.
    rewrite strip_firstn_ljust. reflexivity.
  - constructor; [|constructor]. reflexivity.
Qed.

(** Header records applied in turn. *)
Lemma header_step : forall lines d h r line e x,
  ln lines (h_line h) = Ok line -> parse_header_line line (h_min h) (h_widths h) (h_types h) (h_names h) = Ok e ->
  header_recs lines (dupdate d e) r = x -> header_recs lines d (h :: r) = x.
Proof. intros lines d h r line e x H1 H2 H3. cbn [header_recs]. rewrite H1. cbn [rbind]. rewrite H2. cbn [rbind]. assumption. Qed.

(* ------------------------------------------------------------------ *)
(** ** Tokens *)

Definition lead_ws (s : str) : Prop := match s with c :: _ => is_ws c = true | [] => True end.

Lemma split_head : forall y a, is_ws y = false -> exists t ts, split_by is_ws (y :: a) = t :: ts.
Proof.
  intros y a H. cbn [split_by]. rewrite H. destruct a as [|z a]; [eauto|]. destruct (is_ws z); [eauto|].
  destruct (split_by is_ws (z :: a)); eauto.
Qed.
Lemma split_app_ws : forall a c b, is_ws c = true -> split (a ++ c :: b) = split a ++ split b.
Proof.
  unfold split. induction a as [|x a IH]; intros c b Hc.
  - cbn [app split_by]. rewrite Hc. reflexivity.
  - cbn [app split_by]. destruct (is_ws x) eqn:Ex; [apply IH; assumption|].
    destruct a as [|y a].
    + cbn [app]. rewrite Hc. cbn [split_by app]. rewrite Hc. reflexivity.
    + specialize (IH c b Hc). cbn [app] in IH |- *. destruct (is_ws y) eqn:Ey; [rewrite IH; reflexivity|].
      rewrite IH. destruct (split_head y a Ey) as (t & ts & ->). reflexivity.
Qed.
Lemma split_app_lead : forall a b, lead_ws b -> split (a ++ b) = split a ++ split b.
Proof.
  intros a [|c b] H; [rewrite !app_nil_r; reflexivity|]. rewrite split_app_ws by exact H.
  assert (E : split (c :: b) = split b) by (unfold split; cbn [split_by]; change (is_ws c = true) in H; rewrite H; reflexivity).
  rewrite E. reflexivity.
Qed.
Lemma lead_concat : forall ls, Forall lead_ws ls -> lead_ws (concat ls).
Proof. intros ls H. induction H as [|s ls Hs _ IH]; [exact Logic.I|]. destruct s; [assumption|exact Hs]. Qed.
Lemma split_concat : forall ls, Forall lead_ws ls -> split (concat ls) = flat_map split ls.
Proof.
  intros ls H. induction H as [|s ls Hs Hls IH]; [reflexivity|]. cbn [concat flat_map].
  rewrite split_app_lead by (apply lead_concat; assumption). rewrite IH. reflexivity.
Qed.
Lemma split_unlines : forall ls, split (unlines ls) = flat_map split ls.
Proof.
  induction ls as [|l ls IH]; [reflexivity|]. rewrite unlines_cons. rewrite split_app_ws by reflexivity. rewrite IH. reflexivity.
Qed.
Lemma split_rjust : forall w s, nonws s -> split (rjust w s) = [s].
Proof.
  intros w s [H1 H2]. unfold rjust, split. rewrite split_by_ws_pre by apply blanks_ws.
  rewrite <- (app_nil_r s) at 1. rewrite split_by_tok by auto. reflexivity.
Qed.
Lemma lead_rjust : forall w s, length s < w -> lead_ws (rjust w s).
Proof. intros w s H. unfold rjust. destruct (w - length s) eqn:E; [lia|]. reflexivity. Qed.

(** An integer read as a float. *)
Lemma float_core_dec : forall z, float_core (dec_Z z) = Some (float_of_Z z).
Proof.
  intro z. unfold float_core. rewrite rm_underscore_id.
  2:{ eapply forallb_impl; [|apply dec_Z_numch]. intros c Hc. unfold numch in Hc.
      apply orb_true_iff in Hc as [Hc|Hc]; [rewrite (is_digit_not c 95 Hc eq_refl); reflexivity|].
      apply N.eqb_eq in Hc. subst. reflexivity. }
  assert (Hd : forall n, (0 <= n)%Z -> exists c r, dec_nat n = c :: r /\ is_digit c = true).
  { intros n Hn. assert (Hx := dec_nat_digits n Hn). assert (Hy := dec_nat_nonnil n Hn). destruct (dec_nat n) as [|c r]; [congruence|].
    cbn in Hx. apply andb_true_iff in Hx as [Hx _]. eauto. }
  assert (Hu : forall neg n, (0 <= n)%Z ->
    (if leqb (lower (dec_nat n)) (lit "inf") || leqb (lower (dec_nat n)) (lit "infinity") then Some (S754_infinity neg)
     else if leqb (lower (dec_nat n)) (lit "nan") then Some S754_nan else float_unsigned neg (dec_nat n)) = Some (round64 neg n 1)).
  { intros neg n Hn. destruct (Hd n Hn) as (c & r & E & Hc).
    assert (Hl : lower (dec_nat n) = lower_char c :: lower r) by (rewrite E; reflexivity). rewrite Hl.
    assert (Hlc : lower_char c = c).
    { unfold lower_char. unfold is_digit in Hc. apply andb_true_iff in Hc as [H1 H2]. apply N.leb_le in H1. apply N.leb_le in H2.
      rewrite (proj2 (N.leb_gt 65 c)) by lia. reflexivity. }
    rewrite Hlc. cbn [lit leqb].
    rewrite !(is_digit_not c _ Hc) by reflexivity. cbn [andb orb].
    unfold float_unsigned. rewrite span_all by (apply dec_nat_digits; assumption). rewrite app_nil_r. rewrite E.
    cbn [parse_exp]. rewrite <- E. cbn [length]. unfold float_of_dec. cbn [Z.of_nat Z.sub Z.opp Z.add Z.leb Z.compare].
    rewrite dec_nat_val by assumption. rewrite Z.mul_1_r. reflexivity. }
  unfold dec_Z, float_of_Z. destruct (Z.ltb_spec z 0) as [Hz|Hz].
  - cbn [read_sign]. cbn. rewrite Z.abs_neq by lia. apply Hu. lia.
  - destruct (Hd z Hz) as (c & r & E & Hc).
    assert (Hr : read_sign (dec_nat z) = (false, dec_nat z)).
    { rewrite E. cbn [read_sign]. rewrite !(is_digit_not c _ Hc) by reflexivity. reflexivity. }
    rewrite Hr. rewrite Z.abs_eq by lia. apply Hu. lia.
Qed.
Lemma py_float_dec : forall z, py_float (dec_Z z) = Ok (float_of_Z z).
Proof. intro z. unfold py_float. rewrite strip_num_dec, float_core_dec. reflexivity. Qed.

(* ------------------------------------------------------------------ *)
(** ** Lines of cells contain no delimiter *)

Lemma nonws_chars : forall s, nonws s -> forall c, In c s -> is_ws c = false.
Proof. intros s [_ H] c Hc. rewrite forallb_forall in H. specialize (H c Hc). apply negb_true_iff in H. assumption. Qed.

(** A line ending in a right-justified token ends in "    -1" only if the token is -1. *)
Lemma ends_tag_token : forall q core, nonws core -> ends_tag (q ++ blank :: core) -> core = [45; 49]%N.
Proof.
  intros q core Hn [p Hp]. assert (Hr := f_equal (@rev N) Hp). rewrite !rev_app_distr in Hr. cbn [rev] in Hr.
  rewrite <- app_assoc in Hr. cbn in Hr. destruct (rev core) as [|a [|b [|c r]]] eqn:E.
  - apply (f_equal (@rev N)) in E. rewrite rev_involutive in E. cbn in E. destruct Hn. congruence.
  - cbn in Hr. injection Hr. intros. discriminate.
  - cbn in Hr. injection Hr as -> ->. apply (f_equal (@rev N)) in E. rewrite rev_involutive in E. exact E.
  - cbn in Hr. injection Hr as -> -> -> _. exfalso.
    assert (Hc : is_ws 32 = false). { apply (nonws_chars core Hn). apply in_rev. rewrite E. right. right. left. reflexivity. }
    discriminate.
Qed.
Lemma ends_tag_rjust : forall q w core, nonws core -> 6 <= w -> ends_tag (q ++ rjust w core) -> core = [45; 49]%N.
Proof.
  intros q w core Hn Hw He. unfold rjust in He. destruct (w - length core) as [|k] eqn:E.
  - exfalso. cbn [repeat app] in He. destruct He as [p Hp].
    assert (Hin : In blank core).
    { assert (Hl := f_equal (@length N) Hp). rewrite !app_length in Hl. change (length TAG) with 6 in Hl.
      assert (Hs : skipn (length p) (q ++ core) = TAG) by (rewrite Hp; apply skipn_app_exact; reflexivity).
      rewrite skipn_app in Hs. rewrite (skipn_short _ (length p) q) in Hs by lia. cbn [app] in Hs.
      assert (Ht : In blank TAG) by (left; reflexivity). rewrite <- Hs in Ht. clear -Ht.
      revert Ht. generalize (length p - length q). intro n. revert core. induction n as [|n IH]; intros [|x core] H; auto.
      right. apply IH. exact H. }
    apply (nonws_chars core Hn) in Hin. discriminate.
  - replace (S k) with (k + 1) in He by lia. rewrite repeat_app in He. cbn [repeat] in He.
    rewrite <- app_assoc in He. cbn [app] in He. rewrite app_assoc in He. eapply ends_tag_token; eauto.
Qed.
Lemma dec_Z_inj : forall a b, dec_Z a = dec_Z b -> a = b.
Proof. intros a b H. assert (Ha := int_core_dec a). rewrite H, int_core_dec in Ha. congruence. Qed.
Lemma ends_tag_int : forall q w z, 6 <= w -> z <> (-1)%Z -> ~ ends_tag (q ++ rjust w (dec_Z z)).
Proof. intros q w z Hw Hz He. apply Hz. apply dec_Z_inj. apply (ends_tag_rjust q w); auto. apply dec_Z_nonws. Qed.
Definition expch (c : N) : bool := ((c =? 101) || (c =? 69) || (c =? 110) || (c =? 78))%N.
Lemma fmt_e_expch : forall u p f, existsb expch (fmt_e u p f) = true.
Proof.
  assert (He : forall u k, existsb expch (exp_text u k) = true) by (intros [] k; reflexivity).
  intros u p [s|s| |s m e]; cbn [fmt_e].
  - rewrite !existsb_app, He. rewrite !orb_true_r. reflexivity.
  - rewrite existsb_app. destruct u; cbn; rewrite orb_true_r; reflexivity.
  - destruct u; reflexivity.
  - destruct (dec_round (Z.of_nat p) m e) as [q k]. rewrite !existsb_app, He. rewrite !orb_true_r. reflexivity.
Qed.
Lemma ends_tag_flt : forall q w u p f, 6 <= w -> ~ ends_tag (q ++ rjust w (fmt_e u p f)).
Proof.
  intros q w u p f Hw He. apply ends_tag_rjust in He; [|apply fmt_e_nonws|assumption].
  assert (H := fmt_e_expch u p f). rewrite He in H. discriminate.
Qed.
Lemma ends_tag_str : forall q w s, 6 <= w -> containsb TAG s = false -> ~ ends_tag (q ++ ljust w s).
Proof.
  intros q w s Hw Hc [p Hp]. unfold ljust in Hp. destruct (w - length s) as [|k] eqn:E.
  - cbn [repeat] in Hp. rewrite app_nil_r in Hp. enough (containsb TAG s = true) by congruence. apply containsb_iff.
    assert (Hl := f_equal (@length N) Hp). rewrite !app_length in Hl. change (length TAG) with 6 in Hl.
    assert (Hs : skipn (length p) (q ++ s) = TAG) by (rewrite Hp; apply skipn_app_exact; reflexivity).
    rewrite skipn_app in Hs. rewrite (skipn_short _ (length p) q) in Hs by lia. cbn [app] in Hs.
    exists (firstn (length p - length q) s), []. rewrite app_nil_r, <- Hs. symmetry. apply firstn_skipn.
  - replace (S k) with (k + 1) in Hp by lia. rewrite repeat_app in Hp. cbn [repeat] in Hp. rewrite !app_assoc in Hp.
    change (TAG) with ([32; 32; 32; 32; 45] ++ [49])%N in Hp. rewrite (app_assoc p) in Hp. apply app_inj_tail in Hp as [_ Hp]. discriminate.
Qed.

(** Characters of cells. *)
Definition line_char (c : N) : bool := negb (is_lb_str c).
Definition plain (s : str) : Prop := no_lb is_lb_str s = true /\ Forall scalar s.
Lemma plain_app : forall a b, plain a -> plain b -> plain (a ++ b).
Proof. intros a b [H1 H2] [H3 H4]. split; [unfold no_lb in *; rewrite forallb_app, H1; assumption|apply Forall_app; auto]. Qed.
Lemma plain_concat : forall ls, Forall plain ls -> plain (concat ls).
Proof. intros ls H. induction H; cbn [concat]; [split; [reflexivity|constructor]|apply plain_app; assumption]. Qed.
Lemma plain_ascii : forall s, forallb (fun c => (32 <=? c) && (c <? 127))%N s = true -> plain s.
Proof.
  intros s H. split.
  - unfold no_lb. eapply forallb_impl; [|exact H]. cbn beta. intros c Hc. apply andb_true_iff in Hc as [H1 H2].
    apply N.leb_le in H1. apply N.ltb_lt in H2. unfold is_lb_str. rewrite !(proj2 (N.eqb_neq c _)) by lia. reflexivity.
  - apply Forall_forall. intros c Hc. rewrite forallb_forall in H. specialize (H c Hc). apply andb_true_iff in H as [H1 H2].
    apply N.ltb_lt in H2. apply scalar_ascii. lia.
Qed.
Lemma plain_blanks : forall n, plain (repeat blank n).
Proof. intro n. apply plain_ascii. apply forallb_repeat. reflexivity. Qed.
Lemma plain_rjust : forall w s, plain s -> plain (rjust w s).
Proof. intros w s H. apply plain_app; [apply plain_blanks|assumption]. Qed.
Lemma plain_ljust : forall w s, plain s -> plain (ljust w s).
Proof. intros w s H. apply plain_app; [assumption|apply plain_blanks]. Qed.
Lemma digit_ascii : forall c, is_digit c = true -> ((32 <=? c) && (c <? 127))%N = true.
Proof.
  intros c H. unfold is_digit in H. apply andb_true_iff in H as [H1 H2]. apply N.leb_le in H1. apply N.leb_le in H2.
  rewrite (proj2 (N.leb_le 32 c)) by lia. rewrite (proj2 (N.ltb_lt c 127)) by lia. reflexivity.
Qed.
Lemma plain_dec : forall z, plain (dec_Z z).
Proof.
  intro z. apply plain_ascii. eapply forallb_impl; [|apply dec_Z_numch]. intros c Hc. unfold numch in Hc.
  apply orb_true_iff in Hc as [Hc|Hc]; [apply digit_ascii; assumption|]. apply N.eqb_eq in Hc. subst. reflexivity.
Qed.
Lemma plain_fmt : forall u p f, plain (fmt_e u p f).
Proof.
  intros u p f. apply plain_ascii. eapply forallb_impl; [|apply fmt_e_chars]. intros c Hc. unfold fltch in Hc.
  apply orb_true_iff in Hc as [Hc|Hc]; [apply digit_ascii; assumption|].
  cbn [existsb] in Hc. rewrite ?orb_true_iff, ?N.eqb_eq in Hc.
  repeat (destruct Hc as [Hc|Hc]; [subst; reflexivity|]). discriminate.
Qed.

(** Text of a caller that can be stored in a line of its own: Unicode scalar
    values, no line break of str.splitlines, no "    -1". *)
Definition text_ok (s : str) : Prop := plain s /\ containsb TAG s = false.
Lemma text_ok_line : forall w s, text_ok s -> okline (ljust w s).
Proof.
  intros w s [Hp Hc]. destruct (plain_ljust w s Hp) as [H1 H2]. split; [assumption|]. split; [|assumption].
  unfold ljust. apply tags_no_tag; [|assumption]. apply no_lb_str_bytes. apply Hp.
Qed.

Definition plain_cell (c : cell) : Prop :=
  match c with CS _ _ s => plain s | CL c => line_char c = true /\ scalar c | _ => True end.
Lemma plain_cell_text : forall c, plain_cell c -> plain (cell_text c).
Proof.
  intros [w z|[] w s|w p f|c] H; cbn [cell_text].
  - apply plain_rjust, plain_dec.
  - apply plain_ljust. assumption.
  - apply plain_rjust. assumption.
  - apply plain_rjust, plain_fmt.
  - destruct H as [H1 H2]. split; [|constructor; [assumption|constructor]]. unfold no_lb. cbn [forallb]. unfold line_char in H1. rewrite H1. reflexivity.
Qed.
Lemma plain_cells : forall l, Forall plain_cell l -> plain (cells_text l).
Proof. intros l H. apply plain_concat. rewrite Forall_map. eapply Forall_impl; [|exact H]. exact plain_cell_text. Qed.

(** The last cell does not complete a delimiter. *)
Definition last_ok (c : cell) : Prop :=
  match c with
  | CI w z => 6 <= w /\ z <> (-1)%Z
  | CE w _ _ => 6 <= w
  | CS true w s => 6 <= w /\ containsb TAG s = false
  | CS false _ _ | CL _ => False
  end.
Lemma last_ok_tag : forall q c, last_ok c -> ~ ends_tag (q ++ cell_text c).
Proof.
  intros q [w z|[] w s|w p f|c] H; cbn [cell_text last_ok] in *; try contradiction.
  - apply ends_tag_int; tauto.
  - apply ends_tag_str; tauto.
  - apply ends_tag_flt. assumption.
Qed.
Lemma okline_plain : forall l, plain l -> ~ ends_tag l -> length l < 80 -> okline l.
Proof. intros l [H1 H2] H3 H4. split; [assumption|]. split; [|assumption]. apply tags_short; auto. apply no_lb_str_bytes. assumption. Qed.

Definition width_ok (c : cell) : Prop :=
  match c with
  | CI w z => length (dec_Z z) <= w
  | CS _ w s => length s <= w
  | CE w p f => length (fmt_e false p f) <= w
  | CL _ => True
  end.
Definition cell_width (c : cell) : nat := match c with CI w _ | CS _ w _ | CE w _ _ => w | CL _ => 1 end.
Lemma cell_length : forall c, width_ok c -> length (cell_text c) = cell_width c.
Proof.
  intros [w z|[] w s|w p f|c] H; cbn [cell_text width_ok cell_width] in *; auto using rjust_length, ljust_length.
Qed.
Lemma cells_length : forall l, Forall width_ok l -> length (cells_text l) = list_sum (map cell_width l).
Proof.
  intros l H. induction H as [|c l Hc _ IH]; [reflexivity|]. rewrite cells_text_cons, app_length, IH, cell_length by assumption. reflexivity.
Qed.
Lemma cells_lengths : forall l, Forall width_ok l -> map (@length N) (map cell_text l) = map cell_width l.
Proof.
  intros l H. induction H as [|c l Hc _ IH]; [reflexivity|]. cbn [map]. rewrite IH, cell_length by assumption. reflexivity.
Qed.
(** A short line of cells. *)
Lemma okline_cells : forall l c, Forall plain_cell (l ++ [c]) -> Forall width_ok (l ++ [c]) -> last_ok c ->
  list_sum (map cell_width (l ++ [c])) < 80 -> okline (cells_text (l ++ [c])).
Proof.
  intros l c H1 H2 H3 H4. apply okline_plain.
  - apply plain_cells. assumption.
  - rewrite cells_text_app. rewrite cells_text_cons. unfold cells_text at 2. cbn [map concat]. rewrite app_nil_r. apply last_ok_tag. assumption.
  - rewrite cells_length by assumption. assumption.
Qed.
(** Longer lines: no cell is wider than 70 columns and each ends in a
    character other than a blank. *)
Lemma gap_concat : forall segs, Forall (fun s => length s <= 70 /\ exists p c, s = p ++ [c] /\ c <> blank) segs ->
  containsb (repeat blank 74) (concat segs) = false.
Proof.
  intros segs H. destruct (containsb (repeat blank 74) (concat segs)) eqn:E; [|reflexivity]. exfalso.
  apply containsb_iff in E as (a & b & E). revert a E. induction H as [|s segs (Hl & p & c & Es & Hc) _ IH]; intros a E.
  - apply (f_equal (@length N)) in E. rewrite !app_length, repeat_length in E. cbn in E. lia.
  - cbn [concat] in E. destruct (Nat.le_gt_cases (length s) (length a)) as [L|L].
    + apply (IH (skipn (length s) a)). apply (f_equal (skipn (length s))) in E. rewrite skipn_app_exact in E by reflexivity.
      rewrite E. rewrite skipn_lt_app by assumption. reflexivity.
    + assert (Hn : nth_error (s ++ concat segs) (length s - 1) = Some c).
      { rewrite Es. rewrite <- app_assoc. rewrite nth_error_app2; rewrite app_length; cbn [length]; [|lia].
        replace (length p + 1 - 1 - length p) with 0 by lia. reflexivity. }
      rewrite E in Hn. rewrite nth_error_app2 in Hn by lia. rewrite nth_error_app1 in Hn by (rewrite repeat_length; lia).
      apply nth_error_In, repeat_spec in Hn. contradiction.
Qed.
Definition num_cell (c : cell) : Prop :=
  match c with CI w _ | CE w _ _ => 6 <= w <= 70 | _ => False end.
Lemma nonws_last : forall s, nonws s -> exists p c, s = p ++ [c] /\ c <> blank.
Proof.
  intros s H. destruct (exists_last (l := s)) as (p & c & E); [apply H|]. exists p, c. split; [assumption|].
  assert (Hw : is_ws c = false) by (apply (nonws_chars s H); rewrite E; apply in_or_app; right; left; reflexivity).
  intros ->. discriminate.
Qed.
Lemma nonws_last_rjust : forall w s, nonws s -> exists p c, rjust w s = p ++ [c] /\ c <> blank.
Proof.
  intros w s H. destruct (nonws_last s H) as (p & c & E & Hc). unfold rjust. exists (repeat blank (w - length s) ++ p), c.
  rewrite <- app_assoc, <- E. auto.
Qed.
(** Lines of numbers of any length. *)
Lemma okline_nums : forall l c, Forall num_cell (l ++ [c]) -> Forall width_ok (l ++ [c]) -> last_ok c -> okline (cells_text (l ++ [c])).
Proof.
  intros l c H1 H2 H3.
  assert (Hp : plain (cells_text (l ++ [c]))).
  { apply plain_cells. eapply Forall_impl; [|exact H1]. intros [w z|lf w s|w p f|x] Hx; try contradiction; exact Logic.I. }
  split; [apply Hp|]. split; [|apply Hp]. apply tags_gap.
  - apply no_lb_str_bytes. apply Hp.
  - rewrite cells_text_app. rewrite cells_text_cons. unfold cells_text at 2. cbn [map concat]. rewrite app_nil_r. apply last_ok_tag. assumption.
  - apply gap_concat. rewrite Forall_map. rewrite Forall_forall in *. intros x Hx. specialize (H1 x Hx). specialize (H2 x Hx).
    rewrite cell_length by assumption. destruct x as [w z|lf w s|w p f|x]; try contradiction; cbn [num_cell cell_width cell_text] in *.
    + split; [lia|]. apply nonws_last_rjust, dec_Z_nonws.
    + split; [lia|]. apply nonws_last_rjust, fmt_e_nonws.
Qed.

(* ------------------------------------------------------------------ *)
(** ** Tokens of a line of numbers *)

(** The number leaves at least one blank in front. *)
Definition spaced_cell (c : cell) : Prop :=
  match c with
  | CI w z => length (dec_Z z) < w
  | CE w p f => length (fmt_e false p f) < w
  | _ => False
  end.
Definition cell_tok (c : cell) : str :=
  match c with CI _ z => dec_Z z | CE _ p f => fmt_e false p f | CS _ _ s => s | CL c => [c] end.
Lemma spaced_lead : forall c, spaced_cell c -> lead_ws (cell_text c).
Proof. intros [w z|lf w s|w p f|c] H; try contradiction; apply lead_rjust; assumption. Qed.
Lemma spaced_split : forall c, spaced_cell c -> split (cell_text c) = [cell_tok c].
Proof.
  intros [w z|lf w s|w p f|c] H; try contradiction; cbn [cell_text cell_tok]; apply split_rjust; [apply dec_Z_nonws|apply fmt_e_nonws].
Qed.
Lemma spaced_width : forall c, spaced_cell c -> width_ok c.
Proof. intros [w z|lf w s|w p f|c] H; try contradiction; cbn in *; lia. Qed.
Lemma split_cells : forall l, Forall spaced_cell l -> split (cells_text l) = map cell_tok l.
Proof.
  intros l H. unfold cells_text. rewrite split_concat.
  - induction H as [|c l Hc _ IH]; [reflexivity|]. cbn [map flat_map]. rewrite spaced_split, IH by assumption. reflexivity.
  - rewrite Forall_map. eapply Forall_impl; [|exact H]. exact spaced_lead.
Qed.
Lemma cells_lead : forall l, Forall spaced_cell l -> lead_ws (cells_text l).
Proof. intros l H. apply lead_concat. rewrite Forall_map. eapply Forall_impl; [|exact H]. exact spaced_lead. Qed.
(** Values of the tokens read as floats. *)
Definition cell_flt (c : cell) : float :=
  match c with CI _ z => float_of_Z z | CE _ p f => rd p f | _ => f_zero end.
Lemma parse_cells : forall l, Forall spaced_cell l -> parse_floats (map cell_tok l) = Ok (map cell_flt l).
Proof.
  intros l H. unfold parse_floats, rmap. rewrite map_map.
  induction H as [|c l Hc _ IH]; [reflexivity|]. cbn [map rseq].
  assert (E : py_float (cell_tok c) = Ok (cell_flt c)).
  { destruct c; try contradiction; cbn [cell_tok cell_flt]; [apply py_float_dec|apply py_float_fmt]. }
  rewrite E. cbn [rbind]. rewrite IH. reflexivity.
Qed.
