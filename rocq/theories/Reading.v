(** Reading blocks that any program has laid out in the documented record formats:
    numbers anywhere in their columns, any exponent letter, blanks at the ends of
    the lines, Unix and DOS line breaks. *)
From Coq Require Import String List NArith ZArith Bool Lia.
Import ListNotations.
From Verif Require Import PyBase PyNum PyVal Utf8 Tools DsNodes DsHeaders DsGroups Ds55 Ds58 Ds2414 Uff Facts IntFacts FloatFacts DecFacts FloatText FloatExact DictFacts
  Scan Container Append ContainerThms Utf8Facts Lines Stored Cells Rows RtNodes RtCs RtHeads RtElems RtGroups RtNodal RtFun RtFunSet RtAnalysis Witness
  PropNodes PropHeads PropGroups PropNodal PropFun PropAnalysis PropHistory Layout.
From Coq Require Import Lia.
Open Scope string_scope.
Open Scope list_scope.
Open Scope nat_scope.

(* ------------------------------------------------------------------ *)
(** ** Lines of a text *)

(** Lines, each with its line break. *)
Definition text_of (ps : list (str * str)) : str := concat (map (fun p => fst p ++ snd p) ps).
Definition line_end (e : str) : Prop := e = [LF] \/ e = [CR; LF].
Definition lines_ok (ps : list (str * str)) : Prop := Forall (fun p => no_lb is_lb_str (fst p) = true /\ line_end (snd p)) ps.

Lemma splitlines_crlf : forall keep l rest, no_lb is_lb_str l = true ->
  splitlines is_lb_str keep (l ++ CR :: LF :: rest) = (if keep then l ++ [CR; LF] else l) :: splitlines is_lb_str keep rest.
Proof.
  intros keep l rest. induction l as [|c l IH]; intro H.
  - destruct keep; reflexivity.
  - cbn [no_lb forallb] in H. apply andb_true_iff in H as [Hc H]. apply negb_true_iff in Hc.
    cbn [app splitlines]. rewrite Hc. rewrite IH by assumption. destruct keep; reflexivity.
Qed.
Lemma split_lines : forall keep ps, lines_ok ps ->
  splitlines_str keep (text_of ps) = map (fun p => if keep then fst p ++ snd p else fst p) ps.
Proof.
  intros keep ps H. induction H as [|[l e] ps [Hl He] _ IH]; [reflexivity|]. unfold text_of in *. cbn [map concat fst snd] in *.
  rewrite <- app_assoc. unfold splitlines_str in *. destruct He as [-> | ->]; cbn [app].
  - rewrite splitlines_line by (reflexivity || assumption). rewrite IH. reflexivity.
  - rewrite splitlines_crlf by assumption. rewrite IH. reflexivity.
Qed.
Lemma line_end_ws : forall e, line_end e -> forallb is_ws e = true /\ lead_ws e /\ e <> [].
Proof. intros e [-> | ->]; repeat split; discriminate. Qed.
Lemma line_end_num : forall e, line_end e -> forallb is_ws_num e = true.
Proof. intros e [-> | ->]; reflexivity. Qed.

(* ------------------------------------------------------------------ *)
(** ** Numbers *)

(** Characters of a real number; [dx]: the exponent letter may be D. *)
Definition real_char (dx : bool) (c : N) : bool :=
  is_digit c || ((c =? 43) || (c =? 45) || (c =? 46) || (c =? 69) || (c =? 101))%N || dx && ((c =? 68) || (c =? 100))%N.
(** The exponent letter as Python reads it. *)
Definition to_e (c : N) : N := if ((c =? 69) || (c =? 68) || (c =? 100))%N then 101%N else c.
Definition real_text (dx : bool) (s : str) (v : float) : Prop :=
  forallb (real_char dx) s = true /\ py_float (map to_e s) = Ok v.

Lemma digit_range : forall c, is_digit c = true -> (48 <= c <= 57)%N.
Proof. intros c H. unfold is_digit in H. apply andb_true_iff in H as [H1 H2]. apply N.leb_le in H1. apply N.leb_le in H2. lia. Qed.
Ltac chr := repeat match goal with
  | H : context [N.eqb ?a ?b] |- _ => destruct (N.eqb_spec a b); subst; cbn [orb andb] in H
  | |- context [N.eqb ?a ?b] => destruct (N.eqb_spec a b); subst; cbn [orb andb]
  end; try discriminate; try reflexivity; try lia.
Lemma real_char_cases : forall dx c, real_char dx c = true ->
  is_digit c = true \/ c = 43%N \/ c = 45%N \/ c = 46%N \/ c = 69%N \/ c = 101%N \/ dx = true /\ (c = 68%N \/ c = 100%N).
Proof.
  intros dx c H. unfold real_char in H. destruct (is_digit c); [auto|]. right. cbn [orb] in H. destruct dx; cbn [andb] in H.
  - destruct (N.eqb_spec c 43); [auto|]. destruct (N.eqb_spec c 45); [auto|]. destruct (N.eqb_spec c 46); [auto|].
    destruct (N.eqb_spec c 69); [auto 10|]. destruct (N.eqb_spec c 101); [auto 10|]. destruct (N.eqb_spec c 68); [auto 10|]. destruct (N.eqb_spec c 100); [auto 10|]. discriminate.
  - rewrite orb_false_r in H. destruct (N.eqb_spec c 43); [auto|]. destruct (N.eqb_spec c 45); [auto|]. destruct (N.eqb_spec c 46); [auto|].
    destruct (N.eqb_spec c 69); [auto 10|]. destruct (N.eqb_spec c 101); [auto 10|]. discriminate.
Qed.
Lemma to_e_digit : forall c, is_digit c = true -> to_e c = c.
Proof. intros c H. apply digit_range in H. unfold to_e. chr. Qed.
Lemma real_nonws : forall dx s, forallb (real_char dx) s = true -> forallb (fun c => negb (is_ws c)) s = true.
Proof.
  intros dx s. apply forallb_impl. intros c H. apply real_char_cases in H as [H|H].
  - rewrite (is_digit_nonws _ H). reflexivity.
  - destruct H as [-> | [-> | [-> | [-> | [-> | [_ [-> | ->]]]]]]]; reflexivity.
Qed.
Lemma real_text_nonws : forall dx s v, real_text dx s v -> nonws s.
Proof. intros dx s v [H1 H2]. split; [intros ->; discriminate|]. eapply real_nonws; eauto. Qed.

(** [float] does not distinguish e and E. *)
Definition big_e (c : N) : N := if (c =? 69)%N then 101%N else c.
Lemma big_e_digit : forall c, is_digit (big_e c) = is_digit c.
Proof. intro c. unfold big_e. destruct (N.eqb_spec c 69) as [->|]; reflexivity. Qed.
Lemma span_big_e : forall s, span is_digit (map big_e s) = let (a, b) := span is_digit s in (a, map big_e b).
Proof.
  induction s as [|c s IH]; [reflexivity|]. cbn [map span]. rewrite big_e_digit, IH. destruct (span is_digit s) as [a b].
  destruct (is_digit c) eqn:E; [|reflexivity]. unfold big_e. destruct (N.eqb_spec c 69) as [->|]; [discriminate|reflexivity].
Qed.
Lemma read_sign_big_e : forall s, read_sign (map big_e s) = let (n, u) := read_sign s in (n, map big_e u).
Proof.
  intros [|c s]; [reflexivity|]. cbn [map read_sign]. destruct (N.eqb_spec c 69) as [->|H69]; [reflexivity|].
  assert (E : big_e c = c) by (unfold big_e; rewrite (proj2 (N.eqb_neq c 69)) by assumption; reflexivity). rewrite E.
  destruct (c =? 45)%N; [reflexivity|]. destruct (c =? 43)%N; [reflexivity|]. cbn [map]. rewrite E. reflexivity.
Qed.
Lemma parse_exp_big_e : forall s, parse_exp (map big_e s) = parse_exp s.
Proof.
  intros [|c s]; [reflexivity|]. cbn [map parse_exp].
  assert (E : ((big_e c =? 101) || (big_e c =? 69))%N = ((c =? 101) || (c =? 69))%N).
  { unfold big_e. destruct (N.eqb_spec c 69) as [->|]; [reflexivity|]. rewrite (proj2 (N.eqb_neq c 69)) by assumption. reflexivity. }
  rewrite E. destruct ((c =? 101) || (c =? 69))%N; [|reflexivity].
  rewrite read_sign_big_e. destruct (read_sign s) as [neg u]. rewrite span_big_e. destruct (span is_digit u) as [ds rest].
  destruct ds; [reflexivity|]. destruct rest; reflexivity.
Qed.
Lemma float_unsigned_big_e : forall neg u, float_unsigned neg (map big_e u) = float_unsigned neg u.
Proof.
  intros neg u. unfold float_unsigned. rewrite span_big_e. destruct (span is_digit u) as [ip r1].
  destruct r1 as [|c r]; cbn [map].
  - destruct (ip ++ []); reflexivity.
  - assert (E : (big_e c =? 46)%N = (c =? 46)%N) by (unfold big_e; destruct (N.eqb_spec c 69) as [->|]; reflexivity).
    rewrite E. destruct (c =? 46)%N.
    + rewrite span_big_e. destruct (span is_digit r) as [fp r2]. destruct (ip ++ fp); [reflexivity|]. rewrite parse_exp_big_e. reflexivity.
    + change (big_e c :: map big_e r) with (map big_e (c :: r)). rewrite parse_exp_big_e. reflexivity.
Qed.
Lemma lower_big_e : forall s, lower (map big_e s) = lower s.
Proof.
  intro s. unfold lower. rewrite map_map. apply map_ext. intro c. unfold big_e. destruct (N.eqb_spec c 69) as [->|]; reflexivity.
Qed.
Lemma py_float_big_e : forall s, forallb (fun c => negb (is_ws c)) s = true -> forallb (fun c => negb (c =? 95)%N) s = true ->
  py_float (map big_e s) = py_float s.
Proof.
  intros s Hw Hu. unfold py_float. unfold strip_num.
  assert (Hw' : forallb (fun c => negb (is_ws c)) (map big_e s) = true).
  { rewrite forallb_forall in *. intros c Hc. apply in_map_iff in Hc as (x & <- & Hx). unfold big_e. destruct (x =? 69)%N; [reflexivity|auto]. }
  rewrite !strip_by_nonws by (apply nonws_num; assumption). f_equal. unfold float_core.
  assert (Hu' : forallb (fun c => negb (c =? 95)%N) (map big_e s) = true).
  { rewrite forallb_forall in *. intros c Hc. apply in_map_iff in Hc as (x & <- & Hx). unfold big_e. destruct (N.eqb_spec x 69); [reflexivity|auto]. }
  rewrite !rm_underscore_id by assumption. rewrite read_sign_big_e. destruct (read_sign s) as [neg u].
  rewrite lower_big_e, float_unsigned_big_e. reflexivity.
Qed.

(** The readers' ways to get rid of the letter D. *)
Definition unD (cv : str -> str) (dx : bool) : Prop := forall s, forallb (real_char dx) s = true -> map big_e (cv s) = map to_e s /\ length (cv s) = length s.
Lemma unD_map : forall (g : N -> N) dx, (forall c, real_char dx c = true -> big_e (g c) = to_e c) -> unD (map g) dx.
Proof.
  intros g dx H s Hs. split; [|apply map_length]. rewrite map_map. apply map_ext_in. intros c Hc. apply H. rewrite forallb_forall in Hs. auto.
Qed.
Ltac unD_tac := intros c H; apply real_char_cases in H as [H|H];
  [apply digit_range in H; cbv beta; unfold big_e, to_e, lower_char; rewrite ?(proj2 (N.leb_gt 65 c)) by lia; cbn [andb];
   repeat match goal with |- context [N.eqb ?a ?b] => rewrite (proj2 (N.eqb_neq a b)) by lia end; try reflexivity
  |destruct H as [-> | [-> | [-> | [-> | [-> | [? [-> | ->]]]]]]]; try reflexivity; try discriminate].
Lemma unD_id : unD (fun s => s) false.
Proof.
  intros s Hs. split; [|reflexivity]. apply map_ext_in. intros c Hc. rewrite forallb_forall in Hs. specialize (Hs c Hc).
  revert Hs. generalize c. clear. unD_tac.
Qed.
Lemma unD_map2 : forall (f g : N -> N) dx, (forall c, real_char dx c = true -> big_e (g (f c)) = to_e c) -> unD (fun s => map g (map f s)) dx.
Proof. intros f g dx H s Hs. rewrite (map_map f g). exact (unD_map (fun c => g (f c)) dx H s Hs). Qed.
Lemma unD_d_to_E : unD d_to_E true.
Proof. apply (unD_map2 (fun x => if (x =? 68)%N then 69%N else x) (fun x => if (x =? 100)%N then 69%N else x)). unD_tac. Qed.
Lemma unD_d_to_e : unD d_to_e true.
Proof. apply (unD_map2 (fun x => if (x =? 100)%N then 101%N else x) (fun x => if (x =? 68)%N then 69%N else x)). unD_tac. Qed.
Lemma unD_164 : unD (fun s => replace1 100 101 (lower s)) true.
Proof. apply (unD_map2 lower_char (fun x => if (x =? 100)%N then 101%N else x)). unD_tac. Qed.

Lemma real_read : forall cv dx s v, unD cv dx -> real_text dx s v -> py_float (cv s) = Ok v.
Proof.
  intros cv dx s v Hcv [H1 H2]. destruct (Hcv s H1) as [E _]. rewrite <- H2, <- E.
  assert (Q : forallb (fun c => negb (is_ws c) && negb (c =? 95)%N) (map to_e s) = true).
  { rewrite forallb_forall in *. intros c Hc. apply in_map_iff in Hc as (x & <- & Hx). specialize (H1 x Hx).
    apply real_char_cases in H1 as [H1|H1].
    - rewrite to_e_digit by assumption. rewrite (is_digit_nonws _ H1). apply digit_range in H1. rewrite (proj2 (N.eqb_neq x 95)) by lia. reflexivity.
    - destruct H1 as [-> | [-> | [-> | [-> | [-> | [_ [-> | ->]]]]]]]; reflexivity. }
  rewrite <- E in Q.
  assert (Q' : forallb (fun c => negb (is_ws c) && negb (c =? 95)%N) (cv s) = true).
  { rewrite forallb_forall in *. intros c Hc. specialize (Q (big_e c) (in_map _ _ _ Hc)). cbv beta in Q |- *. unfold big_e in Q. destruct (N.eqb_spec c 69) as [E9|]; [rewrite E9; reflexivity|exact Q]. }
  symmetry. apply py_float_big_e; (eapply forallb_impl; [|exact Q']); intros c Hc; apply andb_true_iff in Hc; tauto.
Qed.

(* ------------------------------------------------------------------ *)
(** ** Records *)

(** Columns in which a reader finds the value of a field: numbers may stand
    anywhere in their columns, texts too; [dx]: the letter D is accepted. *)
Definition holds (dx : bool) (t : str) (f : field) : Prop :=
  match f with
  | DI w z => length t = w /\ exists a b, t = repeat blank a ++ dec_Z z ++ repeat blank b
  | DR w p x => length t = w /\ exists a b s, t = repeat blank a ++ s ++ repeat blank b /\ real_text dx s (rd p x)
  | DA w s => length t = w /\ exists a b, t = repeat blank a ++ s ++ repeat blank b
  | DX w => t = repeat blank w
  | DT w s => length t <= w /\ exists b, t = s ++ repeat blank b
  end.
(** [need first f]: the columns of this field must begin with a blank. *)
Fixpoint columns (dx : bool) (need : bool -> field -> bool) (first : bool) (cols : list str) (fs : list field) : Prop :=
  match cols, fs with
  | [], [] => True
  | t :: cols', f :: fs' => holds dx t f /\ (need first f = true -> lead_ws t) /\ columns dx need false cols' fs'
  | _, _ => False
  end.
(** A line: the columns, and as many blanks behind as [room] permits. *)
Definition line_of (dx : bool) (need : bool -> field -> bool) (room : list field -> nat -> Prop) (line : str) (fs : list field) : Prop :=
  exists cols k, line = concat cols ++ repeat blank k /\ columns dx need true cols fs /\ room fs k.

Definition num (f : field) : bool := match f with DI _ _ | DR _ _ _ => true | _ => false end.
Definition fval (f : field) : float := match f with DI _ z => float_of_Z z | DR _ p x => rd p x | _ => f_zero end.
Definition ival (f : field) : Z := match f with DI _ z => z | _ => 0%Z end.
Definition tok (dx : bool) (s : str) (f : field) : Prop :=
  match f with DI _ z => s = dec_Z z | DR _ p x => real_text dx s (rd p x) | _ => False end.

Lemma split_pad : forall a b s, nonws s -> split (repeat blank a ++ s ++ repeat blank b) = [s].
Proof.
  intros a b s [H1 H2]. unfold split. rewrite split_by_ws_pre by apply blanks_ws.
  rewrite split_by_tok; [|assumption|assumption|destruct b; [exact Logic.I|reflexivity]].
  rewrite split_by_ws_nil by apply blanks_ws. reflexivity.
Qed.
Lemma strip_pad : forall a b s, strip (repeat blank a ++ s ++ repeat blank b) = strip s.
Proof. intros a b s. unfold strip. rewrite strip_by_pre by apply blanks_ws. apply strip_by_post, blanks_ws. Qed.
Lemma dec_real : forall dx z, real_text dx (dec_Z z) (float_of_Z z).
Proof.
  intros dx z. assert (H := dec_Z_numch z). split.
  - eapply forallb_impl; [|exact H]. intros c Hc. unfold numch in Hc. unfold real_char. apply orb_true_iff in Hc as [-> | Hc]; [reflexivity|].
    apply N.eqb_eq in Hc. subst. destruct dx; reflexivity.
  - replace (map to_e (dec_Z z)) with (dec_Z z); [apply py_float_dec|]. rewrite <- (map_id (dec_Z z)) at 1. apply map_ext_in.
    intros c Hc. rewrite forallb_forall in H. specialize (H c Hc). unfold numch in H. apply orb_true_iff in H as [H|H].
    + symmetry. apply to_e_digit. assumption.
    + apply N.eqb_eq in H. subst. reflexivity.
Qed.
Lemma tok_real : forall dx s f, tok dx s f -> real_text dx s (fval f).
Proof. intros dx s [w z|w p x| | |] H; cbn in *; try contradiction; [subst; apply dec_real|assumption]. Qed.
Lemma holds_tok : forall dx t f, holds dx t f -> num f = true -> exists s, split t = [s] /\ strip t = s /\ tok dx s f.
Proof.
  intros dx t f H Hn.
  assert (G : exists a b s, t = repeat blank a ++ s ++ repeat blank b /\ tok dx s f).
  { destruct f; try discriminate; cbn in *; destruct H as [_ H]; [destruct H as (a & b & ->); eauto 10|destruct H as (a & b & s & -> & H); eauto 10]. }
  destruct G as (a & b & s & -> & Hs). exists s. assert (Hw := real_text_nonws _ _ _ (tok_real _ _ _ Hs)).
  split; [apply split_pad; assumption|]. split; [|assumption]. rewrite strip_pad. apply strip_by_nonws. apply Hw.
Qed.

Lemma holds_tok_num : forall dx t f, holds dx t f -> num f = true -> exists s, strip_num t = s /\ tok dx s f.
Proof.
  intros dx t f H Hn.
  assert (G : exists a b s, t = repeat blank a ++ s ++ repeat blank b /\ tok dx s f).
  { destruct f; try discriminate; cbn in *; destruct H as [_ H]; [destruct H as (a & b & ->); eauto 10|destruct H as (a & b & s & -> & H); eauto 10]. }
  destruct G as (a & b & s & -> & Hs). exists s. assert (Hw := real_text_nonws _ _ _ (tok_real _ _ _ Hs)). split; [|assumption].
  unfold strip_num. rewrite strip_by_pre by apply blanks_num. rewrite strip_by_post by apply blanks_num. apply strip_by_nonws, nonws_num. apply Hw.
Qed.

Lemma cols_lead : forall dx need cols fs, columns dx need false cols fs -> Forall (fun f => need false f = true) fs -> Forall lead_ws cols.
Proof.
  intros dx need cols. induction cols as [|t cols IH]; intros fs H Hf; [constructor|]. destruct fs as [|f fs]; [destruct H|].
  cbn [columns] in H. destruct H as (_ & H2 & H3). inversion Hf; subst. constructor; eauto.
Qed.
Lemma cols_split : forall dx need first cols fs, columns dx need first cols fs -> forallb num fs = true ->
  Forall (fun f => need false f = true) fs -> exists toks, split (concat cols) = toks /\ Forall2 (tok dx) toks fs.
Proof.
  intros dx need first cols. revert first. induction cols as [|t cols IH]; intros first [|f fs] H Hn Hf; cbn [columns] in H; try contradiction.
  - exists []. split; [reflexivity|constructor].
  - destruct H as (H1 & H2 & H3). cbn [forallb] in Hn. apply andb_true_iff in Hn as [Hn1 Hn2]. inversion Hf; subst.
    destruct (IH false fs H3 Hn2) as (toks & E & Ht); [assumption|]. destruct (holds_tok _ _ _ H1 Hn1) as (s & Es & _ & Hs).
    exists (s :: toks). split; [|constructor; assumption]. cbn [concat]. rewrite split_app_lead.
    + rewrite Es, E. reflexivity.
    + apply lead_concat. eapply cols_lead; eauto.
Qed.
Lemma split_trail : forall s k, split (s ++ repeat blank k) = split s.
Proof.
  intros s k. rewrite split_app_lead by (destruct k; [exact Logic.I|reflexivity]). unfold split at 2.
  rewrite split_by_ws_nil by apply blanks_ws. apply app_nil_r.
Qed.
Lemma split_end : forall e a b, forallb is_ws e = true -> e <> [] -> split ((a ++ e) ++ b) = split a ++ split b.
Proof.
  intros e a b He Hn. destruct e as [|c e]; [congruence|]. cbn [forallb] in He. apply andb_true_iff in He as [Hc He].
  rewrite <- app_assoc. cbn [app]. rewrite split_app_ws by assumption. f_equal. unfold split. apply split_by_ws_pre. assumption.
Qed.

Definition nums (need : bool -> field -> bool) (fs : list field) : Prop := forallb num fs = true /\ Forall (fun f => need false f = true) fs.
(** The numbers of lines with their line breaks. *)
Lemma lines_split : forall dx need room ps recs, lines_ok ps -> Forall2 (line_of dx need room) (map fst ps) recs -> Forall (nums need) recs ->
  exists toks, split (text_of ps) = toks /\ Forall2 (tok dx) toks (concat recs).
Proof.
  intros dx need room ps. induction ps as [|[l e] ps IH]; intros recs Hps H Hn; inversion H as [|? fs ? recs' Hl H']; subst.
  - exists []. split; [reflexivity|constructor].
  - inversion Hps as [|? ? [_ He] Hps']; subst. inversion Hn as [|? ? [Hn1 Hn2] Hn']; subst.
    destruct (IH recs' Hps' H' Hn') as (toks & E & Ht). destruct Hl as (cols & k & El & Hc & _). cbn [fst] in El. subst l.
    destruct (cols_split _ _ _ _ _ Hc Hn1 Hn2) as (ts & E2 & Ht2).
    exists (ts ++ toks). split; [|cbn [concat]; apply Forall2_app; assumption].
    unfold text_of in *. cbn [map concat fst snd]. cbn [snd] in He. destruct (line_end_ws e He) as (He1 & _ & He2).
    rewrite split_end by assumption. rewrite split_trail, E2, E. reflexivity.
Qed.
(** The same without the line breaks, when also the first number of each line is
    preceded by a blank. *)
Lemma lines_join : forall dx need room ls recs, Forall2 (line_of dx need room) ls recs -> Forall (nums need) recs ->
  Forall (Forall (fun f => need true f = true)) recs -> exists toks, split (join ls) = toks /\ Forall2 (tok dx) toks (concat recs).
Proof.
  intros dx need room ls recs H. induction H as [|l fs ls recs Hl Hls IH]; intros Hn Hf.
  - exists []. split; [reflexivity|constructor].
  - inversion Hn as [|? ? [Hn1 Hn2] Hn']; subst. inversion Hf as [|? ? Hf1 Hf']; subst. destruct (IH Hn' Hf') as (toks & E & Ht).
    destruct Hl as (cols & k & -> & Hc & _). destruct (cols_split _ _ _ _ _ Hc Hn1 Hn2) as (ts & E2 & Ht2).
    exists (ts ++ toks). split; [|cbn [concat]; apply Forall2_app; assumption].
    unfold join in *. cbn [concat]. rewrite split_app_lead.
    + rewrite split_trail, E2, E. reflexivity.
    + apply lead_concat. clear -Hls Hn' Hf'. revert Hn' Hf'. induction Hls as [|l fs ls recs Hl _ IH]; intros Hn Hf; [constructor|].
      inversion Hn as [|? ? [Hn1 Hn2] Hn']; subst. inversion Hf as [|? ? Hf1 Hf']; subst. constructor; [|auto].
      destruct Hl as (cols & k & -> & Hc & _). destruct fs as [|f fs].
      * destruct cols; [|destruct Hc]. cbn [concat app]. destruct k; [exact Logic.I|reflexivity].
      * destruct cols as [|t cols]; [destruct Hc|]. cbn [columns] in Hc. destruct Hc as (H1 & H2 & _). inversion Hf1 as [|? ? Hq _]; subst.
        specialize (H2 Hq). cbn [forallb] in Hn1. apply andb_true_iff in Hn1 as [Hn1 _].
        destruct (holds_tok _ _ _ H1 Hn1) as (s & Es & _). destruct t; [discriminate|exact H2].
Qed.

Lemma toks_floats : forall cv dx toks fs, unD cv dx -> Forall2 (tok dx) toks fs -> parse_floats (map cv toks) = Ok (map fval fs).
Proof.
  intros cv dx toks fs Hcv H. induction H as [|s f toks fs Hs _ IH]; [reflexivity|]. unfold parse_floats, rmap in *. cbn [map rseq].
  rewrite (real_read cv dx s (fval f) Hcv (tok_real _ _ _ Hs)). cbn [rbind]. rewrite IH. reflexivity.
Qed.
Lemma toks_floats_id : forall toks fs, Forall2 (tok false) toks fs -> parse_floats toks = Ok (map fval fs).
Proof. intros toks fs H. rewrite <- (toks_floats _ _ _ _ unD_id H). rewrite map_id. reflexivity. Qed.
Definition inum (f : field) : bool := match f with DI _ _ => true | _ => false end.
Lemma toks_ints : forall dx toks fs, forallb inum fs = true -> Forall2 (tok dx) toks fs -> parse_ints toks = Ok (map ival fs).
Proof.
  intros dx toks fs Hi H. induction H as [|s f toks fs Hs _ IH]; [reflexivity|]. cbn [forallb] in Hi. apply andb_true_iff in Hi as [Hi1 Hi2].
  unfold parse_ints, rmap in *. cbn [map rseq]. destruct f; try discriminate. cbn [tok] in Hs. subst s. rewrite py_int_dec. cbn [rbind]. rewrite IH by assumption. reflexivity.
Qed.

(** Header records. *)
Definition fwidth (f : field) : nat := match f with DI w _ => w | DR w _ _ => w | DA w _ => w | DX w => w | DT w _ => w end.
Definition hfits (t : Z) (f : field) : bool :=
  match f with
  | DI _ _ => (t =? 2)%Z || (t =? -1)%Z | DR _ _ _ => (t =? 3)%Z || (t =? -1)%Z | DA _ _ => (t =? 1)%Z || (t =? -1)%Z | DX _ => (t =? -1)%Z | DT _ _ => false
  end.
Definition hval (t : Z) (f : field) : option pyval :=
  if (t =? -1)%Z then None
  else match f with DI _ z => Some (VInt z) | DR _ p x => Some (VFloat (rd p x)) | DA _ s => Some (VStr (strip s)) | _ => None end.
Lemma hfits_val : forall t f c, hfits t f = true -> holds false c f -> field_val t (strip c) = Ok (hval t f) /\ length c = fwidth f.
Proof.
  intros t f c Ht H. unfold hval. destruct (Z.eqb_spec t (-1)) as [->|Hne].
  { split; [reflexivity|]. destruct f; try discriminate; cbn in H |- *; try apply H. subst. apply repeat_length. }
  assert (T : forall k, ((t =? k)%Z || (t =? -1)%Z) = true -> t = k).
  { intros k Hk. rewrite (proj2 (Z.eqb_neq t (-1))), orb_false_r in Hk by assumption. apply Z.eqb_eq. assumption. }
  destruct f; cbn [hfits] in Ht; try discriminate.
  4:{ apply Z.eqb_eq in Ht. contradiction. }
  - apply T in Ht. subst t. destruct (holds_tok _ _ _ H eq_refl) as (s & _ & -> & Hs). cbn [tok] in Hs. subst s. split; [|apply H].
    unfold field_val. cbn [Z.eqb Pos.eqb]. rewrite py_int_dec. reflexivity.
  - apply T in Ht. subst t. destruct (holds_tok _ _ _ H eq_refl) as (s & _ & -> & Hs). cbn [tok] in Hs. split; [|apply H].
    unfold field_val. cbn [Z.eqb Pos.eqb]. rewrite (real_read (fun s => s) false _ _ unD_id Hs). reflexivity.
  - apply T in Ht. subst t. destruct H as (Hl & a & b & ->). split; [|assumption]. rewrite strip_pad. reflexivity.
Qed.
Lemma header_line : forall need room line fs tail mn types names,
  line_of false need room line fs -> forallb is_ws tail = true -> length types = length fs -> length names = length fs -> mn <= length fs ->
  forallb (fun tf => hfits (fst tf) (snd tf)) (combine types fs) = true ->
  parse_header_line (line ++ tail) mn (map fwidth fs) types names = Ok (put_all [] (combine names (map (fun tf => hval (fst tf) (snd tf)) (combine types fs)))).
Proof.
  intros need room line fs tail mn types names (cols & k & -> & Hc & _) Ht Hty Hn Hm Hf.
  assert (G : forall first cols fs types, columns false need first cols fs -> length types = length fs -> forallb (fun tf => hfits (fst tf) (snd tf)) (combine types fs) = true ->
     map (@length N) cols = map fwidth fs /\ length cols = length fs /\
     Forall2 (fun tf v => field_val (fst tf) (snd tf) = Ok v) (combine types (map strip cols)) (map (fun tf => hval (fst tf) (snd tf)) (combine types fs))).
  { clear. intros first cols. revert first. induction cols as [|c cols IH]; intros first [|f fs] types H Hl Hf; cbn [columns] in H; try contradiction.
    - split; [reflexivity|]. split; [reflexivity|]. destruct types; constructor.
    - destruct types as [|t types]; [discriminate|]. destruct H as (H1 & _ & H3). cbn [combine forallb fst snd] in Hf. apply andb_true_iff in Hf as [Hf1 Hf2].
      destruct (IH false fs types H3 ltac:(cbn in Hl; lia) Hf2) as (E1 & E2 & E3). destruct (hfits_val _ _ _ Hf1 H1) as [V1 V2].
      cbn [map combine length fst snd]. rewrite E1, E2, V2. split; [reflexivity|]. split; [reflexivity|]. constructor; [exact V1|assumption]. }
  destruct (G _ _ _ _ Hc Hty Hf) as (E1 & E2 & E3).
  apply (header_segs cols (repeat blank k ++ tail) _ mn _ []).
  - apply app_assoc_reverse.
  - rewrite forallb_app, Ht, blanks_ws. reflexivity.
  - rewrite app_nil_r. symmetry. assumption.
  - rewrite map_length, combine_length. cbn [length]. unfold str in *. lia.
  - rewrite map_length, combine_length. lia.
  - rewrite map_length, combine_length. lia.
  - rewrite map_length, combine_length. lia.
  - cbn [length repeat]. rewrite app_nil_r. assumption.
Qed.
(** A text that has the record for itself. *)
Lemma header_text : forall dx need room line s tail k, line_of dx need room line [DT 80 s] -> forallb is_ws tail = true ->
  parse_header_line (line ++ tail) 1 [80] [1%Z] [k] = Ok [(KS k, VStr (strip (firstn 80 s)))].
Proof.
  intros dx need room line s tail k (cols & n & -> & Hc & _) Ht. destruct cols as [|t [|? ?]]; cbn [columns] in Hc; try contradiction; [|destruct Hc as (_ & _ & [])].
  destruct Hc as ((Hl & b & ->) & _). cbn [concat]. rewrite app_nil_r. rewrite app_length in Hl.
  rewrite (header_fields _ _ _ _ _ [strip (firstn 80 s)] [Some (VStr (strip (firstn 80 s)))]); try reflexivity.
  - cbn [cut_fields]. f_equal. destruct (extend80_app (((s ++ repeat blank b) ++ repeat blank n) ++ tail)) as [m ->].
    rewrite !(firstn_short _ 80 s) by lia. rewrite <- !app_assoc. rewrite firstn_app. rewrite (firstn_short _ 80 s) by lia.
    apply strip_by_post. apply forallb_firstn. rewrite !forallb_app, !blanks_ws, Ht. reflexivity.
  - constructor; [|constructor]. reflexivity.
Qed.
Lemma text_line : forall dx need room line w s, line_of dx need room line [DT w s] -> exists b, line = s ++ repeat blank b.
Proof.
  intros dx need room line w s (cols & n & -> & Hc & _). destruct cols as [|t [|? ?]]; cbn [columns] in Hc; try contradiction; [|destruct Hc as (_ & _ & [])].
  destruct Hc as ((Hl & b & ->) & _). exists (b + n). cbn [concat]. rewrite app_nil_r, <- app_assoc, repeat_app. reflexivity.
Qed.

(** Records of a list of entries. *)
Lemma Forall2_flat : forall A B C (R : B -> C -> Prop) (f : A -> list C) l ls, Forall2 R ls (flat_map f l) ->
  exists lss, ls = concat lss /\ Forall2 (fun g a => Forall2 R g (f a)) lss l.
Proof.
  intros A B C R f l. induction l as [|a l IH]; intros ls H; cbn [flat_map] in H.
  - inversion H; subst. exists []. split; [reflexivity|constructor].
  - apply Forall2_app_inv_r in H as (l1 & l2 & H1 & H2 & ->). destruct (IH _ H2) as (lss & -> & H3). exists (l1 :: lss). split; [reflexivity|constructor; assumption].
Qed.
Lemma no_real : forall dx need room line fs, forallb (fun f => match f with DR _ _ _ => false | _ => true end) fs = true ->
  line_of dx need room line fs -> line_of false need room line fs.
Proof.
  intros dx need room line fs Hf (cols & k & E & Hc & Hr). exists cols, k. split; [assumption|]. split; [|assumption]. clear E Hr.
  remember true as first eqn:Ef in Hc |- *. clear Ef. revert first fs Hf Hc. induction cols as [|t cols IH]; intros b [|f fs] Hf Hc; cbn [columns] in *; auto.
  cbn [forallb] in Hf. apply andb_true_iff in Hf as [Hf1 Hf2]. destruct Hc as (H1 & H2 & H3). split; [|split; [assumption|apply IH; assumption]].
  destruct f; try discriminate; exact H1.
Qed.
(** Numbers in their columns. *)
Lemma holds_float : forall t f, holds false t f -> num f = true -> py_float t = Ok (fval f).
Proof.
  intros t f H Hn. destruct (holds_tok_num _ _ _ H Hn) as (s & E & Hs). assert (Hr := tok_real _ _ _ Hs).
  assert (E2 : py_float t = py_float s).
  { unfold py_float. rewrite E. f_equal. f_equal. symmetry. apply strip_by_nonws, nonws_num. eapply real_text_nonws. exact Hr. }
  rewrite E2. apply (real_read (fun s => s) false _ _ unD_id (tok_real _ _ _ Hs)).
Qed.
Lemma holds_int : forall dx t w z, holds dx t (DI w z) -> py_int t = Ok z.
Proof. intros dx t w z (_ & a & b & ->). apply py_int_padded; apply blanks_num. Qed.
Lemma cols_floats : forall need first cols fs, columns false need first cols fs -> forallb num fs = true -> parse_floats cols = Ok (map fval fs).
Proof.
  intros need first cols. revert first. induction cols as [|t cols IH]; intros first [|f fs] H Hn; cbn [columns] in H; try contradiction; [reflexivity|].
  cbn [forallb] in Hn. apply andb_true_iff in Hn as [Hn1 Hn2]. destruct H as (H1 & _ & H3). unfold parse_floats, rmap in *. cbn [map rseq].
  rewrite (holds_float _ _ H1 Hn1). cbn [rbind]. rewrite (IH _ _ H3 Hn2). reflexivity.
Qed.
Lemma cols_width : forall dx need first w cols fs, columns dx need first cols fs -> Forall (fun f => num f = true /\ fwidth f = w) fs ->
  Forall (fun s => length s = w) cols /\ length cols = length fs.
Proof.
  intros dx need first w cols. revert first. induction cols as [|t cols IH]; intros first [|f fs] H Hf; cbn [columns] in H; try contradiction; [split; constructor|].
  destruct H as (H1 & _ & H3). inversion Hf as [|? ? [Hn Hw] Hf']; subst. destruct (IH _ _ H3 Hf') as [G1 G2]. split; [|cbn [length]; congruence].
  constructor; [|assumption]. destruct f; try discriminate; apply H1.
Qed.

(** The lines of a block after the opening delimiter and the type line. *)
Definition block_lines (block : bytes) (ps : list (str * str)) : Prop :=
  exists p0 p1, utf8_decode block = text_of (p0 :: p1 :: ps) /\ lines_ok (p0 :: p1 :: ps).

Definition whole (p : str * str) : str := fst p ++ snd p.
Lemma block_keep : forall p0 p1 ps, lines_ok (p0 :: p1 :: ps) ->
  splitlines_str true (text_of (p0 :: p1 :: ps)) = whole p0 :: whole p1 :: @map (str * str) str whole ps.
Proof. intros p0 p1 ps H. rewrite split_lines by assumption. reflexivity. Qed.
Lemma block_drop : forall p0 p1 ps, lines_ok (p0 :: p1 :: ps) ->
  splitlines_str false (text_of (p0 :: p1 :: ps)) = fst p0 :: fst p1 :: @map (str * str) str (@fst str str) ps.
Proof. intros p0 p1 ps H. rewrite split_lines by assumption. reflexivity. Qed.
Lemma join_whole : forall ps, join (@map (str * str) str whole ps) = text_of ps.
Proof. reflexivity. Qed.
