(** Written files follow the documented pre_record formats. *)
From Coq Require Import String List NArith ZArith Bool Lia.
Import ListNotations.
From Verif Require Import PyBase PyNum PyVal Utf8 Tools DsNodes DsHeaders DsGroups Ds55 Ds58 Ds2414 Uff Facts IntFacts FloatFacts DecFacts FloatText Scan Container Append
  ContainerThms Utf8Facts Lines Stored Cells Rows RtNodes RtCs RtHeads RtElems RtGroups RtNodal RtFun RtFunSet RtAnalysis Witness
  PropNodes PropHeads PropGroups PropNodal PropFun PropAnalysis PropHistory Layout.
From Coq Require Import Lia.
Open Scope string_scope.
Open Scope list_scope.
Open Scope nat_scope.

(* ------------------------------------------------------------------ *)
(** ** Columns *)

Definition noD (s : str) : Prop := forallb (fun c => negb (c =? 68)%N) s = true.
Lemma noD_app : forall a b, noD a -> noD b -> noD (a ++ b).
Proof. intros a b Ha Hb. unfold noD in *. rewrite forallb_app, Ha, Hb. reflexivity. Qed.
Lemma noD_replace : forall s, noD s -> replace1 68 101 s = s.
Proof.
  intros s H. unfold replace1. rewrite <- (map_id s) at 2. apply map_ext_in. intros c Hc. unfold noD in H. rewrite forallb_forall in H.
  specialize (H c Hc). destruct (c =? 68)%N; [discriminate|reflexivity].
Qed.
Lemma noD_digit : forall c, is_digit c = true -> negb (c =? 68)%N = true.
Proof.
  intros c H. unfold is_digit in H. apply andb_true_iff in H as [_ H]. apply N.leb_le in H. rewrite (proj2 (N.eqb_neq c 68)) by lia. reflexivity.
Qed.
Lemma noD_fmt : forall u p f, noD (fmt_e u p f).
Proof.
  assert (G : forall u s p ds k, mant_ok p ds -> noD (sign_text s ++ mant_of p ds ++ exp_text u k)).
  { intros u s p ds k Hm. apply noD_app; [destruct s; reflexivity|]. apply noD_app.
    - destruct (mant_of_chars p ds Hm) as (c & r & Em & Hc & Hall & _). unfold noD. eapply forallb_impl; [|exact Hall].
      intros a Ha. apply orb_true_iff in Ha as [Ha|Ha]; [apply noD_digit; assumption|]. apply N.eqb_eq in Ha. subst. reflexivity.
    - destruct (exp_digits u k) as (es & -> & Hes & _). unfold noD. cbn [forallb]. apply andb_true_iff. split; [destruct u; reflexivity|].
      apply andb_true_iff. split; [destruct (k <? 0)%Z; reflexivity|]. eapply forallb_impl; [|exact Hes]. exact noD_digit. }
  intros u p [s|s| |s m e]; cbn [fmt_e].
  - change (mant_text p 0) with (mant_of p (pad0 (S p) (dec_nat 0))). apply G. apply mant_zero.
  - destruct u, s; reflexivity.
  - destruct u; reflexivity.
  - destruct (dec_round (Z.of_nat p) m e) as [q k] eqn:Ed.
    destruct (dec_round_spec _ _ _ _ _ (Nat2Z.is_nonneg p) Ed) as (Hq & _).
    destruct (mant_digits p q Hq) as [Hm Hv].
    change (mant_text p q) with (mant_of p (pad0 (S p) (dec_nat q))). apply G. assumption.
Qed.
Lemma noD_blanks : forall n, noD (repeat blank n).
Proof. intro n. unfold noD. apply forallb_repeat. reflexivity. Qed.
Lemma shows_real : forall u w p f, length (fmt_e u p f) <= w -> shows (rjust w (fmt_e u p f)) (DR w p f).
Proof.
  intros u w p f H. cbn [shows]. split; [apply rjust_length; assumption|]. rewrite noD_replace; [apply py_float_rjust|].
  apply noD_app; [apply noD_blanks|apply noD_fmt].
Qed.
Lemma shows_D : forall f, f_valid f = true -> shows (dseg f) (DR 25 16 f).
Proof.
  intros f H. cbn [shows]. split; [apply dseg_length; assumption|].
  assert (E : replace1 68 101 (dseg f) = rjust 25 (fmt_e false 16 f)).
  { rewrite dseg_eD. unfold eD, replace1. rewrite map_map. rewrite <- map_id. apply map_ext_in. intros c Hc.
    destruct (N.eqb_spec c 101) as [->|Hn]; [reflexivity|].
    assert (Hd : noD (rjust 25 (fmt_e false 16 f))) by (apply noD_app; [apply noD_blanks|apply noD_fmt]).
    unfold noD in Hd. rewrite forallb_forall in Hd. specialize (Hd c Hc). destruct (c =? 68)%N; [discriminate|reflexivity]. }
  rewrite E. apply py_float_rjust.
Qed.
Lemma shows_int : forall w z, length (dec_Z z) <= w -> shows (rjust w (dec_Z z)) (DI w z).
Proof.
  intros w z H. cbn [shows]. split; [apply rjust_length; assumption|]. split; [|apply py_int_rjust].
  unfold rjust. rewrite forallb_app. apply andb_true_iff. split; [apply forallb_repeat; reflexivity|].
  eapply forallb_impl; [|apply dec_Z_numch]. intros c Hc. unfold numch in Hc. apply orb_true_iff in Hc as [Hc|Hc]; rewrite Hc; rewrite ?orb_true_r; reflexivity.
Qed.
(** Texts without the limit of their width. *)
Definition pre_shows (t : str) (f : field) : Prop :=
  match f with DT w s => t = s \/ t = s ++ repeat blank (w - length s) | _ => shows t f end.
Definition pre_record (line : str) (fs : list field) : Prop := exists cols, line = concat cols /\ Forall2 pre_shows cols fs.
Lemma shows_text : forall w s, pre_shows (ljust w s) (DT w s).
Proof. intros w s. right. reflexivity. Qed.
Lemma shows_plain : forall w s, pre_shows s (DT w s).
Proof. intros w s. left. reflexivity. Qed.

(** What cells show. *)
Definition cell_as (c : cell) (f : field) : Prop :=
  match c, f with
  | CI w z, DI w' z' => w' = w /\ z' = z
  | CE w p x, DR w' p' x' => w' = w /\ p' = p /\ x' = x
  | CS _ w s, DA w' s' => w' = w /\ s' = s
  | CS _ w s, DX w' => w' = w /\ s = []
  | CL c, DX w => w = 1 /\ c = blank
  | CL c, DA w s => w = 1 /\ s = [c]
  | _, _ => False
  end.
Lemma cell_as_shows : forall c f, width_ok c -> cell_as c f -> pre_shows (cell_text c) f.
Proof.
  intros [w z|lf w s|w p x|c] [w' z'|w' p' x'|w' s'|w'|w' s'] Hw H; cbn [cell_as] in H; try contradiction.
  - destruct H as [-> ->]. apply shows_int. exact Hw.
  - destruct H as [-> ->]. cbn [pre_shows shows]. cbn [width_ok] in Hw. destruct lf; cbn [cell_text].
    + split; [apply ljust_length; exact Hw|left; reflexivity].
    + split; [apply rjust_length; exact Hw|right; reflexivity].
  - destruct H as [-> ->]. destruct lf; cbn [cell_text pre_shows shows]; unfold ljust, rjust; cbn [length]; rewrite Nat.sub_0_r, ?app_nil_r; reflexivity.
  - destruct H as (-> & -> & ->). cbn [cell_text]. apply shows_real. exact Hw.
  - destruct H as [-> ->]. split; [reflexivity|left; reflexivity].
  - destruct H as [-> ->]. reflexivity.
Qed.
Lemma record_cells : forall l fs, Forall width_ok l -> Forall2 cell_as l fs -> pre_record (cells_text l) fs.
Proof.
  intros l fs Hw H. exists (map cell_text l). split; [reflexivity|]. revert Hw. induction H as [|c f l fs Hc _ IH]; intro Hw; [constructor|].
  inversion Hw; subst. constructor; [apply cell_as_shows; assumption|]. apply IH. assumption.
Qed.
Lemma record_text : forall w s, pre_record (ljust w s) [DT w s].
Proof. intros w s. exists [ljust w s]. split; [cbn; rewrite app_nil_r; reflexivity|]. constructor; [apply shows_text|constructor]. Qed.
Lemma record_plain : forall w s, pre_record s [DT w s].
Proof. intros w s. exists [s]. split; [cbn; rewrite app_nil_r; reflexivity|]. constructor; [apply shows_plain|constructor]. Qed.
Ltac as_cells := repeat (constructor; [cbn [cell_as]; repeat split; reflexivity|]); constructor.
Lemma ints_as : forall w l, Forall2 cell_as (map (CI w) l) (map (DI w) l).
Proof. intros w l. induction l; constructor; [split; reflexivity|assumption]. Qed.
Lemma reals_as : forall w p l, Forall2 cell_as (map (CE w p) l) (map (DR w p) l).
Proof. intros w p l. induction l; constructor; [repeat split; reflexivity|assumption]. Qed.
Lemma record_ints : forall w k l, 1 <= k -> k <= w -> Forall (fits k) l -> pre_record (cells_text (map (CI w) l)) (map (DI w) l).
Proof.
  intros w k l Hk Hw H. apply record_cells; [|apply ints_as]. rewrite Forall_map. eapply Forall_impl; [|exact H]. intros z Hz. cbn [width_ok].
  assert (L := fits_le k z Hk Hz). lia.
Qed.
Lemma record_E13 : forall l, Forall okf l -> pre_record (cells_text (fcells l)) (E13s l).
Proof. intros l H. apply record_cells; [apply fcells_width; assumption|apply reals_as]. Qed.
Lemma record_D25 : forall l, Forall okf l -> pre_record (mline l) (D25s l).
Proof.
  intros l H. apply record_cells; [|apply reals_as]. rewrite Forall_map. eapply Forall_impl; [|exact H]. intros f Hf. cbn [width_ok].
  assert (L := fmt_e_length false 16 f ltac:(lia) Hf). lia.
Qed.
Lemma fits10s : forall k l, 1 <= k <= 10 -> Forall (fits k) l -> pre_record (zline l) (I10s l).
Proof. intros k l Hk H. apply (record_ints 10 k); [lia|lia|assumption]. Qed.

(* ------------------------------------------------------------------ *)
(** ** Rows *)

Lemma take_chunks : forall A k n (l : list A), take_rows k n l = map (chunk k l) (seq 0 n).
Proof.
  intros A k n. induction n as [|n IH]; intro l; [reflexivity|]. cbn [take_rows seq map]. rewrite IH.
  assert (E0 : chunk k l 0 = firstn k l) by (unfold chunk; rewrite Nat.mul_0_r; reflexivity). rewrite E0. f_equal.
  rewrite <- seq_shift, map_map. apply map_ext. intro i. unfold chunk. rewrite skipn_skipn_add. replace (k + k * i) with (k * S i) by lia. reflexivity.
Qed.
Lemma chunks_rows : forall A k (l : list A), 0 < k -> chunks k l = rows_of k l.
Proof.
  intros A k l Hk. unfold chunks, rows_of. rewrite take_chunks. rewrite rows_up_divmod by assumption.
  assert (D := Nat.div_mod (length l) k ltac:(lia)). assert (M := Nat.mod_upper_bound (length l) k ltac:(lia)).
  destruct (Nat.ltb_spec 0 (length l mod k)).
  - rewrite Nat.add_1_r, seq_S, map_app. cbn [map Nat.add]. unfold chunk at 2. rewrite (firstn_all2 (n := k)); [reflexivity|]. rewrite skipn_length. lia.
  - rewrite Nat.add_0_r, app_nil_r. reflexivity.
Qed.
Lemma chunks_flat : forall A B (f : A -> list B) c k l, 0 < c -> 0 < k -> (forall a, length (f a) = c) ->
  chunks (c * k) (flat_map f l) = map (flat_map f) (chunks k l).
Proof.
  intros A B f c k l Hc Hk H. unfold chunks. rewrite map_map. rewrite (flat_length _ _ f c) by assumption.
  assert (E : rows_up (c * k) (c * length l) = rows_up k (length l)).
  { rewrite !rows_up_divmod by nia. rewrite Nat.div_mul_cancel_l, Nat.mul_mod_distr_l by lia.
    destruct (length l mod k); [rewrite Nat.mul_0_r; reflexivity|]. rewrite (proj2 (Nat.ltb_lt 0 (c * S n))) by nia. reflexivity. }
  rewrite E. apply map_ext. intro i. unfold chunk. rewrite <- Nat.mul_assoc. rewrite (skipn_flat _ _ f c) by assumption.
  apply firstn_flat. assumption.
Qed.
Lemma rows_few : forall A k (l : list A), few k l -> rows_of k l = [l].
Proof.
  intros A k l [H1 H2]. rewrite <- chunks_rows by lia. unfold chunks.
  assert (E : rows_up k (length l) = 1) by (unfold rows_up; symmetry; apply Nat.div_unique with (r := length l - 1); lia).
  rewrite E. cbn [seq map]. unfold chunk. rewrite Nat.mul_0_r. cbn [skipn]. rewrite firstn_all2 by assumption. reflexivity.
Qed.
Lemma rows_forall : forall A (P : A -> Prop) k l, 0 < k -> Forall P l -> Forall (Forall P) (rows_of k l).
Proof.
  intros A P k l Hk H. rewrite <- chunks_rows by assumption. eapply Forall_impl; [|apply chunks_ok; [exact Hk|exact H]]. intros a Ha. apply Ha.
Qed.
Lemma F2_map : forall A B C (P : B -> C -> Prop) (f : A -> B) (g : A -> C) l, Forall (fun a => P (f a) (g a)) l -> Forall2 P (map f l) (map g l).
Proof. intros A B C P f g l H. induction H; constructor; assumption. Qed.
Lemma F2_flat : forall A B C (P : B -> C -> Prop) (f : A -> list B) (g : A -> list C) l, Forall (fun a => Forall2 P (f a) (g a)) l -> Forall2 P (flat_map f l) (flat_map g l).
Proof. intros A B C P f g l H. induction H; [constructor|]. cbn [flat_map]. apply Forall2_app; assumption. Qed.

(* ------------------------------------------------------------------ *)
(** ** From the written lines to the block *)

Definition written (c : clock) (m : wmode) (fd : bool) (d : dict) (file : option bytes) (u : uff) (new : bytes) : Prop :=
  exists u', write_sets c file u [d] (mode_name m) fd = (Some (kept m file ++ new), u', None).
Lemma noLF : forall l, no_lb is_lb_str l = true -> ~ In LF l.
Proof. intros l H Hin. unfold no_lb in H. rewrite forallb_forall in H. specialize (H _ Hin). discriminate. Qed.
Lemma line_inj : forall a b l l', ~ In LF a -> ~ In LF b -> a ++ LF :: l = b ++ LF :: l' -> a = b /\ l = l'.
Proof.
  induction a as [|x a IH]; intros [|y b] l l' Ha Hb E; cbn [app] in E.
  - injection E as ->. split; reflexivity.
  - exfalso. apply Hb. injection E as <- _. left. reflexivity.
  - exfalso. apply Ha. injection E as -> _. left. reflexivity.
  - injection E as <- E. destruct (IH b l l') as [-> ->]; [intro; apply Ha; right; assumption|intro; apply Hb; right; assumption|exact E|split; reflexivity].
Qed.
Lemma lines_inj : forall a b, Forall (fun l => ~ In LF l) a -> Forall (fun l => ~ In LF l) b -> unlines a = unlines b -> a = b.
Proof.
  induction a as [|x a IH]; intros [|y b] Ha Hb E; rewrite ?unlines_cons in E.
  - reflexivity.
  - destruct y; discriminate.
  - destruct x; discriminate.
  - inversion Ha; subst. inversion Hb; subst. apply line_inj in E as [-> E]; [|assumption|assumption]. f_equal. apply IH; assumption.
Qed.
Lemma DI_noLF : forall t w z, shows t (DI w z) -> ~ In LF t.
Proof. intros t w z (_ & H & _) Hin. rewrite forallb_forall in H. specialize (H _ Hin). discriminate. Qed.
Lemma blanks_noLF : forall n, ~ In LF (repeat blank n).
Proof. intros n H. apply repeat_spec in H. discriminate. Qed.
(** The block shows the records if and only if its lines do. *)
Lemma text_layout : forall c m fd d ty t0 n ls out, text_set c m fd false d ty (t0 ++ repeat blank n) ls out -> shows t0 (DI 6 ty) ->
  forall file u, appendable (kept m file) -> exists new, written c m fd d file u new /\ forall recs, conforms (utf8_decode new) ty recs <-> Forall2 record ls recs.
Proof.
  intros c m fd d ty t0 n ls out H H0 file u Ha. set (l0 := t0 ++ repeat blank n) in *.
  destruct (text_set_block _ _ _ _ _ _ _ _ _ H) as (b & Hs & _ & _ & Ho & Hc & He).
  destruct (stored_write c m fd d b file u Hs Ha) as [d' Hw]. exists (block_bytes b). split.
  - eexists. unfold write_sets. rewrite parse_mode_name. cbn [write_list]. rewrite Hw. reflexivity.
  - intro recs. assert (Ed : utf8_decode (block_bytes b) = unlines (TAG :: l0 :: ls ++ [TAG])).
    { unfold block_bytes. rewrite Ho, Hc.
      assert (E : utf8_enc (unlines (TAG :: l0 :: ls ++ [TAG])) = Some (TLINE ++ b_body b ++ TLINE)).
      { change (TAG :: l0 :: ls ++ [TAG]) with ([TAG] ++ (l0 :: ls) ++ [TAG]). rewrite !unlines_app. rewrite !utf8_enc_app.
        change (unlines [TAG]) with TLINE. rewrite TLINE_enc. unfold str in *. rewrite He. reflexivity. }
      rewrite <- (app_nil_r (TLINE ++ b_body b ++ TLINE)). rewrite (decode_encode _ _ [] E). apply app_nil_r. }
    rewrite Ed. split; [|intro Hr; exists t0, n, ls; split; [reflexivity|split; assumption]].
    intros (t0' & n' & ls' & E & H0' & Hr).
    assert (Hn : Forall (fun l => ~ In LF l) (TAG :: l0 :: ls ++ [TAG])).
    { assert (T : ~ In LF TAG) by (intro Q; repeat (destruct Q as [Q|Q]; [discriminate|]); destruct Q).
      destruct H as [_ Hok _ _]. inversion Hok as [|? ? O1 O2]; subst. constructor; [exact T|]. constructor; [apply noLF, O1|].
      apply Forall_app. split; [eapply Forall_impl; [|exact O2]; intros a O; apply noLF, O|constructor; [exact T|constructor]]. }
    assert (Hn' : Forall (fun l => ~ In LF l) (TAG :: (t0' ++ repeat blank n') :: ls' ++ [TAG])).
    { inversion Hn as [|? ? T Y]; subst. constructor; [exact T|]. constructor; [intro Q; apply in_app_or in Q as [Q|Q]; [exact (DI_noLF _ _ _ H0' Q)|exact (blanks_noLF _ Q)]|].
      apply Forall_app. split; [|constructor; [exact T|constructor]]. clear - Hr. induction Hr as [|a f l fs Hf _ IH]; constructor; [apply Hf|exact IH]. }
    apply lines_inj in E; [|assumption|assumption].
    assert (E2 : ls ++ [TAG] = ls' ++ [TAG]) by (apply (f_equal (@tl str)), (f_equal (@tl str)) in E; exact E).
    apply app_inj_tail in E2 as [-> _]. exact Hr.
Qed.
Lemma pre_full : forall ls recs, Forall okline ls -> Forall (Forall fit) recs -> Forall2 pre_record ls recs -> Forall2 record ls recs.
Proof.
  intros ls recs Ho Hf H. revert Ho Hf. induction H as [|l fs ls recs (cols & E & Hc) _ IH]; intros Ho Hf; [constructor|].
  inversion Ho as [|? ? O1 O2]; subst. inversion Hf as [|? ? F1 F2]; subst. constructor; [|apply IH; assumption].
  split; [apply noLF, O1|]. exists cols. split; [reflexivity|]. clear - Hc F1. revert F1. induction Hc as [|t f cols fs Ht _ IH]; intro F1; [constructor|].
  inversion F1 as [|? ? G1 G2]; subst. constructor; [|apply IH; assumption]. destruct f; try exact Ht. cbn [pre_shows shows fit] in *.
  split; [|exact Ht]. destruct Ht as [->| ->]; [exact G1|]. rewrite app_length, repeat_length. lia.
Qed.
Lemma record_fit : forall ls recs, Forall2 record ls recs -> Forall (Forall fit) recs.
Proof.
  intros ls recs H. induction H as [|l fs ls recs (_ & cols & _ & Hc) _ IH]; constructor; [|exact IH]. clear - Hc.
  induction Hc as [|t f cols fs Ht _ IH]; constructor; [|exact IH]. destruct f as [| | | |w s]; [exact Logic.I|exact Logic.I|exact Logic.I|exact Logic.I|]. cbn [shows fit] in *.
  destruct Ht as [L [->| ->]]; [exact L|]. rewrite app_length in L. lia.
Qed.
Lemma type_hdr_shows : forall ty, (0 <= ty < 10 ^ 6)%Z -> exists t0 n, type_hdr ty = t0 ++ repeat blank n /\ shows t0 (DI 6 ty).
Proof.
  intros ty H. exists (rjust 6 (dec_Z ty)), 74. split; [reflexivity|]. apply shows_int. apply dec_Z_length; lia.
Qed.

Lemma lines15_doc : forall l, wf15 l -> Forall2 pre_record (map line15 l) (flat_map doc15 l).
Proof.
  intros l W. rewrite map_flat. apply F2_flat. eapply Forall_impl; [|exact W]. intros n (W1 & W2 & W3 & W4 & W5 & W6 & W7). cbn beta.
  constructor; [|constructor]. exists (map (fun z => rjust 10 (dec_Z z)) [n_num n; n_def n; n_disp n; n_color n]
          ++ map (fun f => rjust 13 (fmt_e true 5 f)) [n_x n; n_y n; n_z n]). split; [reflexivity|]. cbn [map app].
  repeat (constructor; [first [apply shows_int; apply Nat.lt_le_incl, fits_lt with (k := 9); [lia|lia|assumption]
                              |apply shows_real; apply Nat.lt_le_incl, (narrow_len 5); assumption]|]). constructor.
Qed.
Lemma lines18_doc : forall l, wf18 l -> Forall2 pre_record (flat_map lines18 l) (flat_map doc18 l).
Proof.
  intros l W. apply F2_flat. eapply Forall_impl; [|exact W]. intros c (W1 & _ & _ & W3 & W4 & W5). cbn beta. unfold lines18, doc18.
  constructor; [apply (fits10s 9); [lia|exact W1]|]. constructor; [apply record_text|].
  constructor; [apply record_E13; apply Forall_app; split; assumption|]. constructor; [apply record_E13; assumption|constructor].
Qed.
Lemma lines82_doc : forall t, wf82 t -> Forall2 pre_record (lines82 t) (doc82 t).
Proof.
  intros t (W1 & W2 & _ & _ & _ & W4 & W5). unfold lines82, doc82. cbn [app].
  constructor; [apply (fits10s 10 [_; _; _]); [lia|auto]|]. constructor; [apply record_text|]. apply F2_map.
  eapply Forall_impl; [|apply (rows_forall _ (fun z => fits 9 z /\ z <> (-1)%Z)); [lia|exact W5]]. intros r Hr. apply (fits10s 9); [lia|].
  eapply Forall_impl; [|exact Hr]. intros z Hz. apply Hz.
Qed.
Lemma times_doc : forall a b, short_text 10 a -> short_text 10 b -> pre_record (cells_text (RtHeads.times a b)) [DA 10 a; DA 10 b].
Proof. intros a b [_ Ha] [_ Hb]. apply record_cells; [repeat (constructor; [assumption|]); constructor|as_cells]. Qed.
Lemma lines151_doc : forall h, wf151 h -> Forall2 pre_record (lines151 h) (doc151 h).
Proof.
  intros h (_ & W2 & W3 & _). unfold lines151, doc151.
  inversion W2 as [|? ? D1 X1]; subst. inversion X1 as [|? ? E1 X2]; subst. inversion X2 as [|? ? D2 X3]; subst. inversion X3 as [|? ? E2 X4]; subst.
  inversion X4 as [|? ? D3 X5]; subst. inversion X5 as [|? ? E3 _]; subst.
  repeat (constructor; [first [apply record_text|apply times_doc; assumption|
    apply record_cells; [constructor; [apply D1|constructor; [apply E1|]]; change (Forall width_ok (map (CI 10) [a_v1 h; a_v2 h; a_ft h])); rewrite Forall_map;
      eapply Forall_impl; [|exact W3]; intros z Hz; apply fits_le; [lia|assumption]|as_cells]]|]). constructor.
Qed.
Lemma lines164_doc : forall u, wf164 u -> Forall2 pre_record (lines164 u) (doc164 u).
Proof.
  intros u (W1 & (_ & W2) & W3 & _ & W6). unfold lines164, doc164.
  inversion W6 as [|? ? V1 Y1]; subst. inversion Y1 as [|? ? V2 Y2]; subst. inversion Y2 as [|? ? V3 Y3]; subst. inversion Y3 as [|? ? V4 _]; subst.
  constructor.
  { apply record_cells; [|as_cells]. constructor; [apply fits_le; [lia|assumption]|]. constructor; [exact W2|]. constructor; [apply fits_le; [lia|assumption]|constructor]. }
  constructor; [exists (map dseg [u_len u; u_force u; u_temp u]); split; [reflexivity|repeat (constructor; [apply shows_D; assumption|]); constructor]|].
  constructor; [exists (map dseg [u_off u]); split; [reflexivity|repeat (constructor; [apply shows_D; assumption|]); constructor]|]. constructor.
Qed.
Lemma lines2400_doc : forall h, wf2400 h -> Forall2 pre_record (lines2400 h) (doc2400 h).
Proof.
  intros h (W1 & W2 & W3 & W4 & _ & _ & _ & _ & W5 & (_ & W6) & (_ & W7) & W8 & W9 & W10 & _ & W11 & _). unfold lines2400, doc2400.
  constructor; [apply record_cells; [|as_cells]; repeat (constructor; [cbn [width_ok]; apply fits_le; [lia|assumption]|]); constructor|].
  constructor; [apply record_text|]. constructor; [apply record_text|].
  constructor; [apply (record_ints 2 2); [lia|lia|assumption]|].
  constructor; [apply record_cells; [|as_cells]; constructor; [exact W6|constructor; [exact W7|]]; repeat (constructor; [cbn [width_ok]; apply fits_le; [lia|assumption]|]); constructor|].
  constructor; [apply record_cells; [|as_cells]; repeat (constructor; [cbn [width_ok]; apply fits_le; [lia|assumption]|]); constructor|]. constructor.
Qed.
Lemma lines2411_doc : forall l, wf2411 l -> Forall2 pre_record (flat_map lines2411 l) (flat_map doc2411 l).
Proof.
  intros l W. apply F2_flat. eapply Forall_impl; [|exact W]. intros n (W1 & W2 & W3 & W4 & _ & W5 & W6 & W7). cbn beta. unfold lines2411, doc2411.
  constructor; [apply (fits10s 10 [_; _; _; _]); [lia|repeat (constructor; [first [assumption|apply fits_9_10; assumption]|]); constructor]|].
  constructor; [apply (record_D25 [_; _; _]); repeat (constructor; [assumption|]); constructor|constructor].
Qed.
Lemma lines2412_doc : forall l, wf2412 l -> Forall (fun e => few 8 (e_nodes e)) l -> Forall2 pre_record (flat_map elem_lines l) (flat_map doc2412 l).
Proof.
  intros l W F. apply F2_flat. rewrite Forall_forall in *. unfold wf2412 in W. rewrite Forall_forall in W. intros e He. specialize (W e He). specialize (F e He).
  destruct W as (W1 & W2 & W3 & W4 & W5 & W6). unfold elem_lines, doc2412. rewrite (rows_few _ 8) by assumption.
  constructor; [apply (fits10s 10); [lia|constructor; [assumption|eapply Forall_impl; [|exact W2]; apply fits_9_10]]|].
  apply Forall2_app.
  - destruct (is_beam e); [|constructor]. specialize (W5 eq_refl). unfold beams. destruct (e_beam e) as [[a b] c]. constructor; [apply (fits10s 9); [lia|apply W5]|constructor].
  - constructor; [|constructor]. apply (fits10s 9); [lia|]. eapply Forall_impl; [|exact W6]. intros z Hz. apply Hz.
Qed.
Lemma lines2420_doc : forall p, wf2420 p -> Forall2 pre_record (lines2420p p) (doc2420p p).
Proof.
  intros p (W1 & _ & _ & W4). unfold lines2420p, doc2420p. cbn [app].
  constructor; [exists [rjust 10 (dec_Z (p_uid p))]; split; [cbn; rewrite app_nil_r; reflexivity|constructor; [apply shows_int, fits_le; [lia|assumption]|constructor]]|].
  constructor; [apply record_text|]. apply F2_flat. eapply Forall_impl; [|exact W4]. intros s (S1 & S2 & S3 & _ & _ & S4). cbn beta. unfold lines2420, doc2420. cbn [app].
  constructor; [apply (fits10s 10); [lia|]; constructor; [assumption|repeat (constructor; [apply fits_9_10; assumption|]); constructor]|].
  constructor; [apply record_plain|]. unfold mrow. destruct (s_mat s) as [[[a b] c] e]. unfold matv in S4. unfold mat_rows in *. cbn [map nth] in *.
  inversion S4 as [|? ? T1 Y1]; subst. inversion Y1 as [|? ? T2 Y2]; subst. inversion Y2 as [|? ? T3 Y3]; subst. inversion Y3 as [|? ? T4 _]; subst.
  repeat (constructor; [apply record_D25; assumption|]). constructor.
Qed.
Lemma group_doc : forall E (cells : E -> list Z) c k g es, 0 < c -> 0 < k -> c * k = 8 -> (forall e, length (cells e) = c) -> wf_group g ->
  fits 10 (Z.of_nat (length es)) -> Forall (fun e => Forall (fits 9) (cells e)) es ->
  Forall2 pre_record (group_lines cells k g es) (doc_group g (map cells es)).
Proof.
  intros E cells c k g es Hc Hk H8 Hl (W1 & W2 & _ & _) Wn We. unfold group_lines, doc_group. cbn [app].
  constructor; [rewrite map_length; apply (fits10s 10); [lia|]; constructor; [assumption|]; apply Forall_app; split; [assumption|constructor; [assumption|constructor]]|].
  constructor; [apply record_text|]. unfold ent_rows. rewrite <- flat_map_concat_map. rewrite <- chunks_rows by lia. rewrite <- H8.
  rewrite (chunks_flat _ _ cells c k) by assumption. rewrite map_map. apply F2_map.
  eapply Forall_impl; [|apply (chunks_ok _ (fun e => Forall (fits 9) (cells e))); [exact Hk|exact We]]. intros r (_ & _ & Hr). apply (fits10s 9); [lia|].
  apply Forall_fm. exact Hr.
Qed.
Lemma lines2429_doc : forall g es, wf2429 g es -> Forall2 pre_record (group_lines cells2 4 g es) (doc2429 g es).
Proof.
  intros g es (W1 & W2 & _ & W3 & _). apply (group_doc _ cells2 2 4); [lia|lia|reflexivity|reflexivity|assumption|assumption|].
  eapply Forall_impl; [|exact W3]. intros e He. apply He.
Qed.
Lemma lines2467_doc : forall l, wf2467 l -> Forall2 pre_record (flat_map glines2467 l) (doc2467 l).
Proof.
  intros l W. apply F2_flat. eapply Forall_impl; [|exact W]. intros g (W1 & W2 & W3). cbn beta.
  assert (E : map (fun '(code, tag, leaf, comp) => [code; tag; leaf; comp]) (snd g) = map cells4 (snd g)).
  { apply map_ext. intros [[[a b] c] e]. reflexivity. }
  rewrite E. apply (group_doc _ cells4 4 2); [lia|lia|reflexivity|reflexivity|assumption|assumption|].
  eapply Forall_impl; [|exact W3]. intros e He. apply He.
Qed.
Lemma texts_doc : forall l, Forall2 pre_record (map (ljust 80) l) (map (fun s => [DT 80 s]) l).
Proof. intro l. apply F2_map. rewrite Forall_forall. intros s _. apply record_text. Qed.
Lemma okf_kind : forall k l, Forall (match k with Cplx3 => okfin | _ => okf end) l -> Forall okf l.
Proof. intros [] l H; try exact H. apply okfin_okf. exact H. Qed.
Lemma lines55_doc : forall r, wf55 r -> Forall2 pre_record (lines55 r) (doc55 r).
Proof.
  intros r (_ & W2 & W3 & W4). unfold lines55, doc55. apply Forall2_app; [apply texts_doc|]. cbn [app].
  constructor.
  { apply (fits10s 10); [lia|]. inversion W2 as [|? ? V1 Y1]; subst. inversion Y1 as [|? ? V2 Y2]; subst. inversion Y2 as [|? ? V3 _]; subst.
    repeat (constructor; [first [assumption|destruct (v_modes r) as [| |[]]; apply fits10_small; cbn; lia|destruct (v_kind r); apply fits10_small; cbn; lia]|]). constructor. }
  change (cells_text (rec7 (v_modes r)) :: cells_text (fcells (rec8 (v_modes r))) :: flat_map row_lines (v_rows r))
    with ([cells_text (rec7 (v_modes r)); cells_text (fcells (rec8 (v_modes r)))] ++ flat_map row_lines (v_rows r)).
  apply Forall2_app.
  - destruct (v_modes r) as [lc n f mm vi hi|lc n f|sec lc n e a b]; cbn [rec7 rec8 wf_modes] in *.
    + destruct W3 as (V1 & V2 & _ & V3). constructor; [apply (fits10s 10); [lia|repeat (constructor; [first [assumption|apply fits10_small; lia]|]); constructor]|].
      constructor; [apply record_E13; assumption|constructor].
    + destruct W3 as (V1 & V2 & _ & V3). constructor; [apply (fits10s 10); [lia|repeat (constructor; [first [assumption|apply fits10_small; lia]|]); constructor]|].
      constructor; [apply record_E13; constructor; [assumption|constructor]|constructor].
    + destruct W3 as (V1 & V2 & _ & V3). constructor; [apply (fits10s 10); [lia|repeat (constructor; [first [assumption|apply fits10_small; lia]|]); constructor]|].
      constructor; [apply record_E13; apply okfin_okf; assumption|constructor].
  - apply F2_flat. eapply Forall_impl; [|exact W4]. intros w (V1 & _ & V2 & V3). cbn beta. unfold row_lines.
    rewrite (rows_few _ 6) by (unfold few; rewrite V2; destruct (v_kind r); cbn; lia).
    constructor; [apply (fits10s 10 [_]); [lia|constructor; [assumption|constructor]]|]. constructor; [apply record_E13; apply okf_kind in V3; assumption|constructor].
Qed.
Lemma axis_doc : forall a, wf_axis a -> pre_record (cells_text (axis_cells a)) (doc_axis a).
Proof.
  intros a W. apply record_cells; [|as_cells]. destruct W as (W1 & W2 & W3 & W4 & _ & W5 & _ & W6).
  repeat (constructor; [cbn [width_ok]; first [assumption|exact Logic.I|apply fits_le; [lia|assumption]]|]). constructor.
Qed.
Lemma hd58_doc : forall r, wf58 r -> Forall2 pre_record (hd58 r) (doc58_head r).
Proof.
  intros r W. unfold hd58, doc58_head. apply Forall2_app; [apply texts_doc|]. cbn [map].
  constructor; [apply record_cells; [apply rec6_width; assumption|as_cells]|].
  constructor; [apply record_cells; [apply rec7f_ok; assumption|as_cells]|].
  destruct W as (_ & _ & _ & _ & _ & _ & _ & _ & _ & _ & _ & _ & _ & _ & _ & _ & _ & Wa & Wo & Wd & Wz & _).
  repeat (constructor; [apply axis_doc; assumption|]). constructor.
Qed.
Lemma F2_flat_map : forall A B C (P : B -> C -> Prop) (f : A -> list B) (g : A -> list C) l, (forall a, Forall2 P (f a) (g a)) -> Forall2 P (flat_map f l) (flat_map g l).
Proof. intros A B C P f g l H. apply F2_flat. rewrite Forall_forall. auto. Qed.
Lemma data_doc : forall cplx even dbl ps, Forall okpt ps -> Forall2 pre_record (data_lines cplx even dbl ps) (doc58_data cplx even dbl (map clean ps)).
Proof.
  intros cplx even dbl ps H.
  set (g := fun p : pt => (if even then [] else [DR 13 5 (fst p)]) ++ [if dbl then DR 20 11 (fst (snd p)) else DR 13 5 (fst (snd p))] ++
                          (if cplx then [if dbl then DR 20 11 (snd (snd p)) else DR 13 5 (snd (snd p))] else [])).
  assert (E : doc58_data cplx even dbl (map clean ps) = map (fun row => flat_map g row) (rows_of (per_line cplx even dbl) (map clean ps))).
  { destruct cplx, even, dbl; reflexivity. }
  rewrite E. unfold data_lines. rewrite <- chunks_rows by apply per_line_pos.
  assert (Em : chunks (per_line cplx even dbl) (map clean ps) = map (map clean) (chunks (per_line cplx even dbl) ps)).
  { unfold chunks. rewrite map_length, map_map. apply map_ext. intro i. unfold chunk. rewrite skipn_map, firstn_map. reflexivity. }
  rewrite Em, map_map. apply F2_map.
  eapply Forall_impl; [|apply chunks_ok; [apply per_line_pos|exact H]]. intros ch (_ & _ & Hc). cbn beta. unfold line58. apply record_cells.
  - apply Forall_fm. eapply Forall_impl; [|exact Hc]. intros p Hp. eapply Forall_impl; [|apply fmt_cells_ok; [apply p_fmts_std|apply okfin_okf, p_vals_ok; exact Hp]].
    intros x Hx. apply Hx.
  - clear Hc. induction ch as [|p ch IH]; [constructor|]. cbn [map flat_map]. apply Forall2_app; [|exact IH].
    unfold p_cells, p_fmts, p_vals, fmt_cells, g, clean. destruct cplx, even, dbl; cbn [app combine map fst snd]; as_cells.
Qed.
Lemma lines58_doc : forall r, wf58 r -> Forall2 pre_record (lines58 r) (doc58 r).
Proof.
  intros r W. unfold lines58, doc58. apply Forall2_app; [apply hd58_doc; assumption|apply data_doc, wf58_pts; assumption].
Qed.
Lemma lines2414_doc : forall a, wf2414 a -> match n_body a with AFreq _ | ANone => True | ANodes rows | AElems rows => Forall (fun w => few 6 (snd w)) rows
    | AOn els => Forall (fun e => Forall (few 6) (o_rows e)) els end -> Forall2 pre_record (lines2414 a) (doc2414 a).
Proof.
  intros a (_ & _ & W1 & _ & W2 & _ & W3 & _ & W4 & W5 & _ & W6) F. unfold lines2414, doc2414, head_lines. rewrite <- !app_assoc.
  inversion W1 as [|? ? V1 Y1]; subst. inversion Y1 as [|? ? V2 Y2]; subst. rename Y2 into V3.
  assert (K : forall l, Forall w11 l -> Forall okf l) by (intros l H; eapply Forall_impl; [|exact H]; intros f Hf; apply Hf).
  apply Forall2_app.
  { constructor; [apply (fits10s 10); [lia|auto]|]. constructor; [apply record_text|]. constructor; [apply (fits10s 10); [lia|auto]|constructor]. }
  apply Forall2_app; [apply texts_doc|]. apply Forall2_app.
  { constructor; [apply (fits10s 10); [lia|exact V3]|]. constructor; [apply (fits10s 10); [lia|assumption]|]. constructor; [apply (fits10s 10); [lia|assumption]|].
    constructor; [apply record_E13; auto|]. constructor; [apply record_E13; auto|constructor]. }
  destruct (n_body a) as [rows|rows|rows|els|]; cbn [body_lines wf_body] in *.
  - destruct W6 as [Hn W6]. apply F2_flat. eapply Forall_impl; [|exact W6]. intros w (U1 & _ & U2 & U3). cbn beta.
    rewrite (rows_few _ 6) by (unfold few; rewrite U2; lia). unfold row_lines.
    constructor; [apply (fits10s 10 [_]); [lia|auto]|]. constructor; [apply record_E13, w12_okf; eapply Forall_impl; [|exact U3]; intros f Hf; apply Hf|constructor].
  - destruct W6 as [Hn W6]. apply F2_flat. rewrite Forall_forall in *. intros w Hw. destruct (W6 w Hw) as (U1 & _ & U2).
    rewrite (rows_few _ 6) by (apply F; assumption). unfold row_lines.
    constructor; [apply (fits10s 10 [_]); [lia|auto]|]. constructor; [apply record_E13, w12_okf; assumption|constructor].
  - destruct W6 as [Hn W6]. apply F2_flat. rewrite Forall_forall in *. intros w Hw. destruct (W6 w Hw) as (U1 & U2 & U3).
    rewrite (rows_few _ 6) by (apply F; assumption). unfold el_lines, el_head.
    constructor; [apply (fits10s 10); [lia|]; constructor; [assumption|constructor; [apply fits_9_10; assumption|constructor]]|].
    constructor; [apply record_E13, w12_okf; assumption|constructor].
  - apply F2_flat. rewrite Forall_forall in *. intros w Hw. destruct (W6 w Hw) as (U1 & U2 & _ & _ & U3). specialize (F w Hw). unfold on_lines, on_head.
    constructor; [apply (fits10s 10); [lia|]; constructor; [assumption|eapply Forall_impl; [|exact U2]; apply fits_9_10]|].
    rewrite map_flat. apply F2_flat. rewrite Forall_forall in *. intros row Hr. rewrite (rows_few _ 6) by (apply F; assumption).
    constructor; [apply record_E13, w12_okf, U3; assumption|constructor].
  - constructor.
Qed.


(* ------------------------------------------------------------------ *)
(** ** Lines that are too long *)

Definition fixed (f : field) : option nat := match f with DI w _ | DR w _ _ | DA w _ | DX w => Some w | DT _ _ => None end.
Lemma fixed_length : forall t f w, shows t f -> fixed f = Some w -> length t = w.
Proof.
  intros t [w z|w p x|w s|w|w s] w' H E; cbn [fixed shows] in *; try discriminate; injection E as <-; try apply H. subst t. apply repeat_length.
Qed.
Lemma record_width : forall B (mk : B -> field) w l t, (forall b, fixed (mk b) = Some w) -> record t (map mk l) -> length t = w * length l.
Proof.
  intros B mk w l t Hf (_ & cols & -> & H). revert cols H. induction l as [|b l IH]; intros cols H.
  - inversion H; subst. cbn. lia.
  - cbn [map] in H. inversion H as [|? ? ? ? H1 H2]; subst. cbn [concat length]. rewrite app_length, (IH _ H2), (fixed_length _ _ w H1 (Hf b)). lia.
Qed.
Definition opens (recs : list (list field)) : Prop := match recs with [] => True | fs :: _ => ~ record [] fs end.
Lemma ints_open : forall w z l rest, 0 < w -> opens (map (DI w) (z :: l) :: rest).
Proof. intros w z l rest Hw H. apply (record_width Z (DI w) w) in H; [|reflexivity]. cbn [length] in H. lia. Qed.

Definition drows {B} (mk : B -> field) (k : nat) (rs : list (list B)) : list (list field) := flat_map (fun r => map (map mk) (rows_of k r)) rs.
Lemma rows_nil : forall A k, 0 < k -> @rows_of A k [] = [].
Proof. intros A k Hk. rewrite <- chunks_rows by assumption. unfold chunks, rows_up. cbn [length]. rewrite Nat.div_small by lia. reflexivity. Qed.
Lemma rows_head : forall A k (l : list A), 0 < k -> l <> [] -> exists rest, rows_of k l = firstn k l :: rest.
Proof.
  intros A k l Hk Hl. rewrite <- chunks_rows by assumption. unfold chunks.
  assert (H : 1 <= rows_up k (length l)).
  { unfold rows_up. destruct l as [|a l]; [congruence|]. cbn [length]. apply Nat.div_le_lower_bound; lia. }
  destruct (rows_up k (length l)) as [|n]; [lia|]. cbn [seq map]. eexists. f_equal. unfold chunk. rewrite Nat.mul_0_r. reflexivity.
Qed.
Lemma drows_open : forall B (mk : B -> field) w k rs rest, 0 < w -> 0 < k -> (forall b, fixed (mk b) = Some w) -> opens rest -> opens (drows mk k rs ++ rest).
Proof.
  intros B mk w k rs rest Hw Hk Hf Hr. induction rs as [|r rs IH]; [exact Hr|]. unfold drows in *. cbn [flat_map]. destruct r as [|b r].
  - rewrite (rows_nil B k Hk). exact IH.
  - destruct (rows_head _ k (b :: r) Hk ltac:(discriminate)) as [q ->]. cbn [map app opens]. intro H. apply (record_width _ mk w) in H; [|assumption].
    destruct k; [lia|]. cbn [firstn length] in H. lia.
Qed.
Lemma walk_rows : forall B (mk : B -> field) w k (line : list B -> str) rs rl rd, 0 < w -> 0 < k -> (forall b, fixed (mk b) = Some w) ->
  Forall (fun r => length (line r) = w * length r) rs -> opens rd ->
  Forall2 record (map line rs ++ rl) (drows mk k rs ++ rd) -> Forall (few k) rs /\ Forall2 record rl rd.
Proof.
  intros B mk w k line rs rl rd Hw Hk Hf Hl Hr. induction Hl as [|r rs Hlr Hl IH]; intro H; [split; [constructor|exact H]|].
  assert (Ho := drows_open _ mk w k rs rd Hw Hk Hf Hr). unfold drows in *. cbn [flat_map map app] in H. rewrite <- app_assoc in H. destruct r as [|b r].
  - exfalso. rewrite (rows_nil B k Hk) in H. cbn [map app] in H. cbn [length] in Hlr. rewrite Nat.mul_0_r in Hlr. apply length_zero_iff_nil in Hlr.
    rewrite Hlr in H. inversion H as [|? fs ? ? H1 H2 E1 E2]; subst. rewrite <- E2 in Ho. exact (Ho H1).
  - assert (few k (b :: r)) as F.
    { destruct (rows_head _ k (b :: r) Hk ltac:(discriminate)) as [q E]. rewrite E in H. cbn [map app] in H. inversion H as [|? ? ? ? H1 H2]; subst.
      apply (record_width _ mk w) in H1; [|assumption]. rewrite Hlr, firstn_length in H1. split; [cbn; lia|]. cbn [length] in *. nia. }
    rewrite (rows_few _ k) in H by assumption. cbn [map app] in H. inversion H as [|? ? ? ? H1 H2]; subst. destruct (IH H2) as [I1 I2].
    split; [constructor; assumption|exact I2].
Qed.
Lemma F2_prefix : forall A B (P : A -> B -> Prop) a b x y, length a = length b -> Forall2 P (a ++ x) (b ++ y) -> Forall2 P x y.
Proof.
  intros A B P. induction a as [|u a IH]; intros [|v b] x y E H; try discriminate; [exact H|]. cbn [app] in H. inversion H; subst.
  apply (IH b); [injection E as E; exact E|assumption].
Qed.
Lemma walk : forall A B (mk : B -> field) w k (line : list B -> str) (hl : A -> list str) (hd : A -> list (list field)) (rows : A -> list (list B)) l,
  0 < w -> 0 < k -> (forall b, fixed (mk b) = Some w) -> Forall (fun a => Forall (fun r => length (line r) = w * length r) (rows a)) l ->
  (forall a, length (hl a) = length (hd a)) -> (forall a rest, opens (hd a ++ rest)) ->
  Forall2 record (flat_map (fun a => hl a ++ map line (rows a)) l) (flat_map (fun a => hd a ++ drows mk k (rows a)) l) ->
  Forall (fun a => Forall (few k) (rows a)) l.
Proof.
  intros A B mk w k line hl hd rows l Hw Hk Hf Hl Hlen Hop. induction Hl as [|a l Ha _ IH]; intro H; [constructor|].
  cbn [flat_map] in H. rewrite <- !app_assoc in H. apply F2_prefix in H; [|apply Hlen].
  apply (walk_rows _ mk w k line) in H; [|assumption|assumption|assumption|assumption|].
  - destruct H as [H1 H2]. constructor; [exact H1|apply IH; exact H2].
  - destruct l as [|a' l]; [exact Logic.I|]. cbn [flat_map]. rewrite <- app_assoc. apply Hop.
Qed.
Lemma zline_length : forall k l, 1 <= k <= 10 -> Forall (fits k) l -> length (zline l) = 10 * length l.
Proof.
  intros k l Hk H. unfold zline, cells_text. induction H as [|z l Hz _ IH]; [reflexivity|]. cbn [map concat length]. rewrite app_length, IH. cbn [cell_text].
  rewrite rjust_length by (assert (Q := fits_le k z ltac:(lia) Hz); lia). lia.
Qed.
Lemma frow_length : forall l, Forall w12 l -> length (cells_text (fcells l)) = 13 * length l.
Proof.
  intros l H. unfold fcells, cells_text. induction H as [|f l [_ Hf] _ IH]; [reflexivity|]. cbn [map concat length]. rewrite app_length. unfold str in *. rewrite IH. cbn [cell_text].
  rewrite rjust_length by lia. lia.
Qed.
Lemma few_one : forall A B k (f : A -> list B) l, Forall (fun a => Forall (few k) [f a]) l -> Forall (fun a => few k (f a)) l.
Proof. intros A B k f l H. eapply Forall_impl; [|exact H]. intros a Ha. inversion Ha; assumption. Qed.
Lemma few2412 : forall l, wf2412 l -> Forall2 record (flat_map elem_lines l) (flat_map doc2412 l) -> Forall (fun e => few 8 (e_nodes e)) l.
Proof.
  intros l W H. apply few_one. apply (walk _ _ (DI 10) 10 8 zline (fun e => zline (attrs e) :: (if is_beam e then [zline (beams e)] else []))
    (fun e => I10s [e_num e; e_desc e; e_phys e; e_mat e; e_color e; e_count e] :: (if is_beam e then [I10s (let '(a, b, c) := e_beam e in [a; b; c])] else []))
    (fun e => [e_nodes e])); [lia|lia|reflexivity| | | |].
  - eapply Forall_impl; [|exact W]. intros e (_ & _ & _ & _ & _ & W6). constructor; [|constructor]. apply (zline_length 9); [lia|].
    eapply Forall_impl; [|exact W6]. intros z Hz. apply Hz.
  - intro e. destruct (is_beam e); reflexivity.
  - intros e rest. apply ints_open. lia.
  - assert (E : forall e, (I10s [e_num e; e_desc e; e_phys e; e_mat e; e_color e; e_count e] :: (if is_beam e then [I10s (let '(a, b, c) := e_beam e in [a; b; c])] else [])) ++
      drows (DI 10) 8 [e_nodes e] = doc2412 e).
    { intro e. unfold drows, doc2412. cbn [flat_map app]. rewrite app_nil_r. reflexivity. }
    rewrite (flat_map_ext _ _ E). exact H.
Qed.
Lemma few2414 : forall a, wf2414 a -> Forall2 record (lines2414 a) (doc2414 a) ->
  match n_body a with AFreq _ | ANone => True | ANodes rows | AElems rows => Forall (fun w => few 6 (snd w)) rows
    | AOn els => Forall (fun e => Forall (few 6) (o_rows e)) els end.
Proof.
  intros a W H. destruct W as (_ & _ & _ & _ & _ & _ & _ & _ & _ & _ & _ & W).
  unfold lines2414, doc2414, head_lines in H. rewrite <- !app_assoc in H. apply F2_prefix in H; [|reflexivity]. apply F2_prefix in H; [|rewrite !map_length; reflexivity].
  apply F2_prefix in H; [|reflexivity].
  destruct (n_body a) as [rows|rows|rows|els|]; cbn [body_lines wf_body] in *; try exact Logic.I.
  - apply few_one. apply (walk _ _ (DR 13 5) 13 6 (fun r => cells_text (fcells r)) (fun w => [zline [fst w]]) (fun w => [[DI 10 (fst w)]]) (fun w => [snd w])); [lia|lia|reflexivity| |reflexivity| |].
    + eapply Forall_impl; [|apply W]. intros w (_ & _ & U). constructor; [apply frow_length; exact U|constructor].
    + intros w rest. apply (ints_open 10 (fst w) []). lia.
    + assert (E : forall w : Z * list float, [[DI 10 (fst w)]] ++ drows (DR 13 5) 6 [snd w] = [DI 10 (fst w)] :: map E13s (rows_of 6 (snd w))).
      { intro w. unfold drows. cbn [flat_map app]. rewrite app_nil_r. reflexivity. }
      rewrite (flat_map_ext _ _ E). exact H.
  - apply few_one. apply (walk _ _ (DR 13 5) 13 6 (fun r => cells_text (fcells r)) (fun w => [zline (el_head w)]) (fun w => [I10s [fst w; Z.of_nat (length (snd w))]]) (fun w => [snd w])); [lia|lia|reflexivity| |reflexivity| |].
    + eapply Forall_impl; [|apply W]. intros w (_ & _ & U). constructor; [apply frow_length; exact U|constructor].
    + intros w rest. apply ints_open. lia.
    + assert (E : forall w : Z * list float, [I10s [fst w; Z.of_nat (length (snd w))]] ++ drows (DR 13 5) 6 [snd w] = I10s [fst w; Z.of_nat (length (snd w))] :: map E13s (rows_of 6 (snd w))).
      { intro w. unfold drows. cbn [flat_map app]. rewrite app_nil_r. reflexivity. }
      rewrite (flat_map_ext _ _ E). exact H.
  - apply (walk _ _ (DR 13 5) 13 6 (fun r => cells_text (fcells r)) (fun e => [zline (on_head e)]) (fun e => [I10s [o_num e; o_exp e; o_nodes e; o_per e]]) o_rows); [lia|lia|reflexivity| |reflexivity| |].
    + eapply Forall_impl; [|apply W]. intros e (_ & _ & _ & _ & U). eapply Forall_impl; [|exact U]. intros r Hr. apply frow_length. exact Hr.
    + intros w rest. apply ints_open. lia.
    + exact H.
Qed.

(* ------------------------------------------------------------------ *)
(** ** C61 *)

(** A set that is written without error is in the file as a block.  Its records
    have the documented fields in the documented columns if and only if the set
    is one of those that [in_format] describes. *)
Theorem C61_layout : forall c m fd d x, states c m fd d x -> (forall r, x <> X58 true r) ->
  forall file u, appendable (kept m file) ->
  exists new, written c m fd d file u new /\ (conforms (utf8_decode new) (type_of x) (documented x) <-> in_format x).
Proof.
  assert (K0 : forall ty t0 n, shows t0 (DI 6 ty) -> forall c m fd d ls out recs (P : Prop),
    text_set c m fd false d ty (t0 ++ repeat blank n) ls out -> (P -> Forall2 pre_record ls recs) -> (Forall2 record ls recs -> P) ->
    forall file u, appendable (kept m file) -> exists new, written c m fd d file u new /\ (conforms (utf8_decode new) ty recs <-> Forall (Forall fit) recs /\ P)).
  { intros ty t0 n H0 c m fd d ls out recs P Hs H1 H2 file u Ha. assert (Hok := ts_ok _ _ _ _ _ _ _ _ _ Hs). inversion Hok as [|? ? _ Hl]; subst.
    destruct (text_layout _ _ _ _ _ _ _ _ _ Hs H0 file u Ha) as (new & Hw & Hc). exists new. split; [exact Hw|]. rewrite Hc. split.
    - intro Hr. split; [exact (record_fit _ _ Hr)|exact (H2 Hr)].
    - intros [Hf HP]. apply pre_full; auto. }
  assert (K : forall ty, (0 <= ty < 10 ^ 6)%Z -> forall c m fd d ls out recs (P : Prop), text_set c m fd false d ty (type_hdr ty) ls out ->
    (P -> Forall2 pre_record ls recs) -> (Forall2 record ls recs -> P) ->
    forall file u, appendable (kept m file) -> exists new, written c m fd d file u new /\ (conforms (utf8_decode new) ty recs <-> Forall (Forall fit) recs /\ P)).
  { intros ty H c m fd d ls out recs P Hs. destruct (type_hdr_shows ty H) as (t0 & n & E & H0). rewrite E in Hs. exact (K0 ty t0 n H0 c m fd d ls out recs P Hs). }
  assert (K6 : forall ty l0, shows l0 (DI 6 ty) -> forall c m fd d ls out recs (P : Prop), text_set c m fd false d ty l0 ls out ->
    (P -> Forall2 pre_record ls recs) -> (Forall2 record ls recs -> P) ->
    forall file u, appendable (kept m file) -> exists new, written c m fd d file u new /\ (conforms (utf8_decode new) ty recs <-> Forall (Forall fit) recs /\ P)).
  { intros ty l0 H0 c m fd d ls out recs P Hs. apply (K0 ty l0 0 H0 c m fd d ls out recs P). cbn [repeat]. rewrite app_nil_r. exact Hs. }
  clear K0. intros c m fd d x H Hx. unfold in_format.
  destruct x as [l|l|r|b r|t|h|u|q|h|l|l|a|p|g es|l]; cbn [states type_of documented] in *.
  - destruct H as [R W]. eapply (K6 15%Z hdr15); [repeat split|exact (set15 _ _ _ _ _ _ R W)|intros _; apply lines15_doc; assumption|auto].
  - destruct H as [R W]. eapply (K 18%Z); [lia|exact (set18 _ _ _ _ _ _ R W)|intros _; apply lines18_doc; assumption|auto].
  - destruct H as [R W]. eapply (K 55%Z); [lia|exact (set55 _ _ _ _ _ _ R W)|intros _; apply lines55_doc; assumption|auto].
  - destruct b; [exfalso; exact (Hx r eq_refl)|]. destruct H as [R W]. eapply (K 58%Z); [lia|exact (set58 _ _ _ _ _ _ R W)|intros _; apply lines58_doc; assumption|auto].
  - destruct H as [R W]. eapply (K 82%Z); [lia|exact (set82 _ _ _ _ _ _ R W)|intros _; apply lines82_doc; assumption|auto].
  - destruct H as [R W]. eapply (K 151%Z); [lia|exact (set151 _ _ _ _ _ _ R W)|intros _; apply lines151_doc; assumption|auto].
  - destruct H as [R W]. eapply (K 164%Z); [lia|exact (set164 _ _ _ _ _ _ R W)|intros _; apply lines164_doc; assumption|auto].
  - destruct H as [R W]. eapply (K 1858%Z); [lia|exact (set1858 _ _ _ _ _ _ R W)|contradiction|].
    intro Q. inversion Q as [|? ? ? ? Q1 _]; subst. assert (L := record_width Z (DI 12) 12 _ _ (fun _ => eq_refl) Q1).
    destruct W as (W1 & W2 & W3 & _). change (cells_text (rec1858 q)) with (zline [q_rec q; q_oct q; q_run q; 0; 0; 0]%Z) in L. rewrite (zline_length 10 [q_rec q; q_oct q; q_run q; 0; 0; 0]%Z) in L; [discriminate|lia|].
    assert (Z0 : fits 10 0%Z) by (unfold fits; lia).
    repeat (constructor; [first [assumption|unfold fits in *; cbn in *; lia]|]). constructor.
  - destruct H as [R W]. eapply (K 2400%Z); [lia|exact (set2400 _ _ _ _ _ _ R W)|intros _; apply lines2400_doc; assumption|auto].
  - destruct H as [R W]. eapply (K 2411%Z); [lia|exact (set2411 _ _ _ _ _ _ R W)|intros _; apply lines2411_doc; assumption|auto].
  - destruct H as [R W]. eapply (K 2412%Z); [lia|exact (set2412 _ _ _ _ _ _ R W)|intro F; apply lines2412_doc; assumption|apply few2412; assumption].
  - destruct H as [R W]. eapply (K6 2414%Z hdr2414); [repeat split|exact (set2414 _ _ _ _ _ _ R W)|intro F; apply lines2414_doc; assumption|apply few2414; assumption].
  - destruct H as [R W]. eapply (K 2420%Z); [lia|exact (set2420 _ _ _ _ _ _ R W)|intros _; apply lines2420_doc; assumption|auto].
  - destruct H as [R W]. eapply (K6 2429%Z hdr2429); [repeat split|exact (set2429 _ _ _ _ _ _ _ R W)|intros _; apply lines2429_doc; assumption|auto].
  - destruct H as [R W]. eapply (K6 2467%Z hdr2467); [repeat split|exact (set2467 _ _ _ _ _ _ R W)|intros _; apply lines2467_doc; assumption|auto].
Qed.
Print Assumptions C61_layout.

(** Binary functions: the identification line (dataset_58.py:789-815) and the
    eleven header records in text, then the numbers in the order of the text
    format, each as eight bytes, then the delimiter. *)
Definition doc58b_id (nb : Z) : list field :=
  [DI 6 58; DA 1 (lit "b"); DI 6 1; DI 6 2; DI 12 11; DI 12 nb; DI 6 0; DI 6 0; DI 12 0; DI 12 0].
Definition doc58b_data (cplx even : bool) (ps : list pt) : list float :=
  flat_map (fun p => (if even then [] else [fst p]) ++ [fst (snd p)] ++ (if cplx then [snd (snd p)] else [])) ps.
Theorem C61_binary : forall c m fd d r, states c m fd d (X58 true r) ->
  forall file u, appendable (kept m file) ->
  exists hb id ls, written c m fd d file u (hb ++ concat (map pack_d (doc58b_data (q_cplx r) (q_even r) (map clean (q_pts r)))) ++ TLINE) /\
    utf8_decode hb = unlines (TAG :: id :: ls) /\ length ls = 11 /\ record id (doc58b_id (8 * Z.of_nat (length (q_pts r)))) /\ (Forall2 record ls (doc58_head r) <-> Forall (fun s => length s <= 80) (q_ids r)).
Proof.
  intros c m fd d r H file u Ha. cbn [states] in H. destruct H as (-> & R & W & Hdbl & Hnb & Hnd). assert (Hi := repr58_ids _ _ _ _ R).
  destruct (bin_ok _ (conj (n_bytes_pos r) Hnb)) as (Wb & Hb & Hty).
  assert (Hok : Forall okline (l0_58 true r :: hd58 r)) by (constructor; [exact Hb|apply hd58_ok; assumption]).
  destruct (text_block_ok 58 (l0_58 true r) (hd58 r) Hok Hty) as (hb & He & _ & Hf & _ & _).
  destruct (write58_items c Add fd true d r R W) as (T & Es & HT).
  assert (He' : utf8_enc (unlines (TAG :: l0_58 true r :: hd58 r)) = Some (TLINE ++ hb)).
  { change (unlines (TAG :: l0_58 true r :: hd58 r)) with (TLINE ++ unlines (l0_58 true r :: hd58 r)). rewrite utf8_enc_app, TLINE_enc, He. reflexivity. }
  destruct (stored58b c fd false d r R W Hdbl Hnb Hnd) as (b & Hst & _).
  assert (Eb : block_bytes b = (TLINE ++ hb) ++ payload r ++ TLINE).
  { destruct Hst as [_ Hrun]. specialize (Hrun []). rewrite Es, (run_writes T _ (TLINE ++ hb) _ _ HT He') in Hrun. cbn [tail58 app] in Hrun.
    rewrite app_nil_r, run_raw in Hrun. rewrite (writes_run [end_line] TLINE end_writes TLINE _ TLINE_enc) in Hrun. unfold payload.
    rewrite <- !app_assoc in *. congruence. }
  exists (TLINE ++ hb), (l0_58 true r), (hd58 r).
  destruct (stored_write c Add fd d _ file u Hst Ha) as [d' Hw]. split.
  - eexists. unfold write_sets. rewrite parse_mode_name. cbn [write_list]. rewrite Hw. cbn [w_exc w_file w_uff]. rewrite Eb.
    assert (E : doc58b_data (q_cplx r) (q_even r) (map clean (q_pts r)) = flat_map (p_vals (q_cplx r) (q_even r)) (q_pts r)).
    { unfold doc58b_data. rewrite flat_map_concat_map, map_map, <- flat_map_concat_map. reflexivity. }
    rewrite E. reflexivity.
  - split; [rewrite <- (app_nil_r (TLINE ++ hb)), (decode_encode _ _ [] He'); apply app_nil_r|].
    split; [etransitivity; [exact (Forall2_len _ _ _ _ _ (hd58_doc r W))|]; unfold doc58_head; rewrite app_length, map_length, Hi; reflexivity|].
    split; [|split].
    + replace (8 * Z.of_nat (length (q_pts r)))%Z with (n_bytes58 r) by (unfold n_bytes58; rewrite Hdbl; lia).
      assert (Q : Forall2 record [l0_58 true r] [doc58b_id (n_bytes58 r)]).
      { apply pre_full; [constructor; [exact Hb|constructor]|constructor; [|constructor]; repeat (constructor; [exact Logic.I|]); constructor|].
        constructor; [apply record_cells; [exact Wb|as_cells]|constructor]. }
      inversion Q; assumption.
    + intro Hr. apply record_fit in Hr. unfold doc58_head in Hr. apply Forall_app in Hr as [Hr _]. rewrite Forall_map in Hr.
      eapply Forall_impl; [|exact Hr]. intros s Hs. inversion Hs; subst. assumption.
    + intro Hl. apply pre_full; [inversion Hok; assumption| |apply hd58_doc; assumption]. unfold doc58_head. apply Forall_app. split.
      * rewrite Forall_map. eapply Forall_impl; [|exact Hl]. intros s Hs. constructor; [exact Hs|constructor].
      * repeat (constructor; [repeat (constructor; [exact Logic.I|]); constructor|]). constructor.
Qed.
Print Assumptions C61_binary.

(** Field 6 of the identification line is the "number of bytes following ASCII
    lines" (dataset_58.py:813).  Eight times the number of points is written,
    which is that number for real data with even abscissa only. *)
Lemma app_cut : forall A (x y a b : list A), length x = length y -> x ++ a = y ++ b -> x = y /\ a = b.
Proof.
  induction x as [|p x IH]; intros [|q y] a b L E; try discriminate; [auto|]. cbn [app length] in *. injection E as -> E. injection L as L.
  destruct (IH y a b L E) as [-> ->]. auto.
Qed.
Lemma same_columns : forall ws (a b : list str), Forall2 (fun t w => length t = w) a ws -> Forall2 (fun t w => length t = w) b ws ->
  concat a = concat b -> a = b.
Proof.
  induction ws as [|w ws IH]; intros a b Ha Hb E; inversion Ha as [|x ? a' ? Hx Ha']; subst; inversion Hb as [|y ? b' ? Hy Hb']; subst; [reflexivity|].
  cbn [concat] in E. apply app_cut in E; [|congruence]. destruct E as [-> E]. f_equal. apply IH; assumption.
Qed.
Lemma id_bytes : forall line nb nb', record line (doc58b_id nb) -> record line (doc58b_id nb') -> nb = nb'.
Proof.
  assert (W : forall nb cols, Forall2 shows cols (doc58b_id nb) -> Forall2 (fun t w => length t = w) cols [6; 1; 6; 6; 12; 12; 6; 6; 12; 12]).
  { intros nb cols H. unfold doc58b_id in H.
    repeat (match type of H with Forall2 _ _ (_ :: _) => let H1 := fresh in let H2 := fresh in inversion H as [|? ? ? ? H1 H2]; subst; clear H;
      apply Forall2_cons; [exact (proj1 H1)|]; clear H1; rename H2 into H end).
    inversion H. constructor. }
  intros line nb nb' [_ (a & -> & Ha)] [_ (b & E & Hb)].
  assert (a = b) by (eapply same_columns; [exact (W _ _ Ha)|exact (W _ _ Hb)|exact E]). subst b.
  unfold doc58b_id in Ha, Hb.
  do 5 (inversion Ha as [|? ? ? ? _ Ha']; subst; clear Ha; rename Ha' into Ha; inversion Hb as [|? ? ? ? _ Hb']; subst; clear Hb; rename Hb' into Hb).
  inversion Ha as [|? ? ? ? Sa _]; subst. inversion Hb as [|? ? ? ? Sb _]; subst.
  destruct Sa as (_ & _ & Sa), Sb as (_ & _ & Sb). congruence.
Qed.
Theorem C61_bytes_refuted : forall c m fd d r, states c m fd d (X58 true r) -> q_cplx r = true \/ q_even r = false ->
  forall file u, appendable (kept m file) ->
  exists hb id ls data, written c m fd d file u (hb ++ data ++ TLINE) /\ utf8_decode hb = unlines (TAG :: id :: ls) /\ length ls = 11 /\
    data = concat (map pack_d (doc58b_data (q_cplx r) (q_even r) (map clean (q_pts r)))) /\
    (exists nb, record id (doc58b_id nb)) /\ ~ record id (doc58b_id (Z.of_nat (length data))).
Proof.
  intros c m fd d r H Hk file u Ha.
  assert (Hne : q_pts r <> []) by (cbn [states] in H; destruct H as (_ & R & _); exact (repr58_pts _ _ _ _ R)). destruct (C61_binary c m fd d r H file u Ha) as (hb & id & ls & Hw & Hd & Hlen & Hid & _).
  exists hb, id, ls, (concat (map pack_d (doc58b_data (q_cplx r) (q_even r) (map clean (q_pts r))))).
  split; [exact Hw|]. split; [exact Hd|]. split; [exact Hlen|].
  split; [reflexivity|]. split; [eexists; exact Hid|].
  intro Q. apply (id_bytes _ _ _ Hid) in Q. revert Q.
  assert (L : forall l, length (concat (map pack_d l)) = length l * 8).
  { induction l as [|f l IH]; [reflexivity|]. cbn [map concat length]. rewrite app_length, IH, pack_d_length. lia. }
  rewrite L.
  assert (G : forall l : list pt, 2 * length l <= length (flat_map (fun p => (if q_even r then [] else [fst p]) ++ [fst (snd p)] ++ (if q_cplx r then [snd (snd p)] else [])) l)).
  { induction l as [|q l IH]; [cbn; lia|]. cbn [flat_map length]. rewrite app_length.
    destruct (q_even r), (q_cplx r); cbn [app length] in *; try lia; destruct Hk; discriminate. }
  assert (K : 2 * length (q_pts r) <= length (doc58b_data (q_cplx r) (q_even r) (map clean (q_pts r)))).
  { etransitivity; [|exact (G (map clean (q_pts r)))]. apply Nat.eq_le_incl. f_equal. symmetry. exact (map_length clean (q_pts r)). }
  assert (0 < length (q_pts r)) by (destruct (q_pts r); [congruence|cbn; lia]).
  revert K. generalize (length (doc58b_data (q_cplx r) (q_even r) (map clean (q_pts r)))). lia.
Qed.
Print Assumptions C61_bytes_refuted.
Example C61_bytes_example : exists d r, states noclock Add true d (X58 true r) /\ (q_cplx r = true \/ q_even r = false).
Proof. exists d58_bin, r58_uneven. split; [split; [reflexivity|exact C28_example]|right; reflexivity]. Qed.

(** Both sides of the equivalence occur. *)
Example C61_example : in_format (X82 t82) /\ states noclock Add true d82 (X82 t82).
Proof.
  split; [|exact C34_example]. split; [|exact Logic.I]. cbn [documented]. unfold doc82. cbn [app].
  constructor; [repeat (constructor; [exact Logic.I|]); constructor|]. constructor; [constructor; [vm_compute; lia|constructor]|].
  vm_compute rows_of. repeat (constructor; [repeat (constructor; [exact Logic.I|]); constructor|]). constructor.
Qed.
(** Qualifiers are never written in the documented columns: the first record is
    documented as 6I12 (dataset_1858.py:13) and written in columns of ten. *)
Theorem C61_1858_refuted : forall c m fd d q, states c m fd d (X1858 q) -> forall file u, appendable (kept m file) ->
  exists new, written c m fd d file u new /\ ~ conforms (utf8_decode new) 1858 (documented (X1858 q)).
Proof.
  intros c m fd d q H file u Ha. destruct (C61_layout c m fd d _ H ltac:(discriminate) file u Ha) as (new & Hw & Hc).
  exists new. split; [exact Hw|]. intro Q. apply Hc in Q. apply Q.
Qed.
Print Assumptions C61_1858_refuted.
Example C61_1858_example : states noclock Add true d1858 (X1858 q1858).
Proof. exact C39_example. Qed.
(** Elements with more than eight nodes are written on one line. *)
Theorem C61_2412_refuted : forall c m fd d l e, states c m fd d (X2412 l) -> In e l -> 8 < length (e_nodes e) -> forall file u, appendable (kept m file) ->
  exists new, written c m fd d file u new /\ ~ conforms (utf8_decode new) 2412 (documented (X2412 l)).
Proof.
  intros c m fd d l e H Hin Hlen file u Ha. destruct (C61_layout c m fd d _ H ltac:(discriminate) file u Ha) as (new & Hw & Hc).
  exists new. split; [exact Hw|]. intro Q. apply Hc in Q. destruct Q as [_ Q]. rewrite Forall_forall in Q. apply Q in Hin. unfold few in Hin. lia.
Qed.
Print Assumptions C61_2412_refuted.
Definition brick_nodes : list Z := [1; 2; 3; 4; 5; 6; 7; 8; 9; 10; 11; 12; 13; 14; 15; 16; 17; 18; 19; 20]%Z.
Definition d_brick : dict := [(KS "type", VInt 2412); (KI 116, VList [elem_dict 1 116 20 brick_nodes []])].
Definition l_brick : list elem := [{| e_num := 1; e_desc := 116; e_phys := 1; e_mat := 2; e_color := 7; e_count := 20; e_beam := (0, 1, 2)%Z; e_nodes := brick_nodes |}].
Example C61_2412_example : states noclock Add true d_brick (X2412 l_brick) /\ exists e, In e l_brick /\ 8 < length (e_nodes e).
Proof.
  split; [|eexists; split; [left; reflexivity|vm_compute; lia]]. split.
  - split; [reflexivity|]. split; [reflexivity|]. unfold d_brick, l_brick. cbn [elems_of].
    eexists [_], []. split; [reflexivity|]. split; [eexists; split; [reflexivity|repeat (constructor; [wit_elem|]); constructor]|]. reflexivity.
  - unfold wf2412, l_brick. repeat (constructor; [unfold wf_elem; cbn [e_num e_desc e_phys e_mat e_color e_count e_nodes e_beam];
      do 4 (split; [wit|]); split; [intro Hb; first [discriminate Hb|clear Hb; wit]|unfold brick_nodes; wit]|]). constructor.
Qed.
(** More than six values for a node or an element are written on one line. *)
Theorem C61_2414_refuted : forall c m fd d a rows w, states c m fd d (X2414 a) -> n_body a = ANodes rows \/ n_body a = AElems rows ->
  In w rows -> 6 < length (snd w) -> forall file u, appendable (kept m file) ->
  exists new, written c m fd d file u new /\ ~ conforms (utf8_decode new) 2414 (documented (X2414 a)).
Proof.
  intros c m fd d a rows w H Hb Hin Hlen file u Ha. destruct (C61_layout c m fd d _ H ltac:(discriminate) file u Ha) as (new & Hw & Hc).
  exists new. split; [exact Hw|]. intro Q. apply Hc in Q. destruct Q as [_ Q].
  assert (F : Forall (fun w => few 6 (snd w)) rows) by (destruct Hb as [E|E]; rewrite E in Q; exact Q).
  rewrite Forall_forall in F. apply F in Hin. unfold few in Hin. lia.
Qed.
Print Assumptions C61_2414_refuted.
Definition tensor : list string := ["1"; "2"; "3"; "2"; "4"; "5"; "3"; "5"; "6"].
Definition d_tensor : dict := Eval vm_compute in
  head2414 1 1 2 9 ++ [(KS "node_nums", VArr DInt [VInt 1]); (KS "data_at_node", VList [VArr DFloat (map fv tensor)])].
Definition a_tensor : ana := Eval vm_compute in
  a2414 1 1 2 9 [0; 0; 0; 0; 0; 0; 0; 0]%Z [0; 0; 0; 0; 0; 0; 0; 0]%Z zeros6 zeros6 (ANodes [(1, map fl tensor)]%Z).
Example C61_2414_example : states noclock Add true d_tensor (X2414 a_tensor) /\ exists rows w, n_body a_tensor = ANodes rows /\ In w rows /\ 6 < length (snd w).
Proof.
  split; [split|].
  - repr2414_tac d_tensor a_tensor. split; [wit_arr|]. eexists; split; [vm_compute; reflexivity|]; wit_deep.
  - wf2414_tac a_tensor. split; [split; [discriminate|reflexivity]|]. split; [discriminate|]. unfold w12; wit; vm_compute; lia.
  - eexists _, _. split; [reflexivity|]. split; [left; reflexivity|]. vm_compute. lia.
Qed.
(** Texts longer than their record are not cut: the trace line identification. *)
Theorem C61_text_refuted : forall c m fd d t, states c m fd d (X82 t) -> 80 < length (t_id t) -> forall file u, appendable (kept m file) ->
  exists new, written c m fd d file u new /\ ~ conforms (utf8_decode new) 82 (documented (X82 t)).
Proof.
  intros c m fd d t H Hlen file u Ha. destruct (C61_layout c m fd d _ H ltac:(discriminate) file u Ha) as (new & Hw & Hc).
  exists new. split; [exact Hw|]. intro Q. apply Hc in Q. destruct Q as [Q _]. cbn [documented] in Q. unfold doc82 in Q. cbn [app] in Q.
  inversion Q as [|? ? _ Q2]; subst. inversion Q2 as [|? ? Q3 _]; subst. inversion Q3 as [|? ? Q4 _]; subst. cbn [fit] in Q4. lia.
Qed.
Print Assumptions C61_text_refuted.
Example C61_text_example : exists d t, states noclock Add true d (X82 t) /\ 80 < length (t_id t).
Proof.
  exists (dput d82 (KS "id") (VStr (repeat 65%N 81))), {| t_num := 2; t_color := 30; t_id := repeat 65%N 81; t_nodes := t_nodes t82 |}.
  split; [|vm_compute; lia]. split.
  - unfold repr82. do 5 (split; [wit1|]). exists DInt, (map VInt (t_nodes t82)). split; [vm_compute; reflexivity|]. split; [left; reflexivity|]. split.
    + repeat constructor.
    + repeat constructor.
  - unfold wf82. cbn [t_num t_color t_id t_nodes t82 length]. wit.
Qed.
