(** Reading documented blocks of the types 15, 18, 82, 2411, 2420, 151, 164, 1858, 2400. *)
From Coq Require Import String List NArith ZArith Bool Lia.
Import ListNotations.
From Verif Require Import PyBase PyNum PyVal Utf8 Tools DsNodes DsHeaders DsGroups Ds55 Ds58 Ds2414 Uff Facts IntFacts FloatFacts DecFacts FloatText FloatExact DictFacts
  Scan Container Append ContainerThms Utf8Facts Lines Stored Cells Rows RtNodes RtCs RtHeads RtElems RtGroups RtNodal RtFun RtFunSet RtAnalysis Witness
  PropNodes PropHeads PropGroups PropNodal PropFun PropAnalysis PropHistory Layout Reading.
From Coq Require Import Lia.
Open Scope string_scope.
Open Scope list_scope.
Open Scope nat_scope.

Definition anyroom (fs : list field) (k : nat) : Prop := True.
(** Numbers are separated by blanks: every number, the integers only, all but the
    first of a line, the reals only and all but the first of a line, none. *)
Definition sep_all (first : bool) (f : field) : bool := true.
Definition sep_ints (first : bool) (f : field) : bool := inum f.
Definition sep_next (first : bool) (f : field) : bool := negb first.
Definition sep_reals (first : bool) (f : field) : bool := negb first && match f with DR _ _ _ => true | _ => false end.
Definition sep_none (first : bool) (f : field) : bool := false.

Lemma ok_map_fst : forall ps, lines_ok ps -> Forall (fun p => line_end (snd p)) ps.
Proof. intros ps H. eapply Forall_impl; [|exact H]. intros p [_ Hp]. exact Hp. Qed.
Lemma lines_tail : forall p ps, lines_ok (p :: ps) -> lines_ok ps.
Proof. intros p ps H. inversion H; assumption. Qed.
Lemma nums_all : forall need fs, Forall (fun f => num f = true /\ need false f = true) fs -> nums need fs.
Proof.
  intros need fs H. split; [|eapply Forall_impl; [|exact H]; intros f Hf; apply Hf]. apply forallb_forall. rewrite Forall_forall in H. intros f Hf. apply H. assumption.
Qed.

Ltac open_block Hb :=
  let p0 := fresh "p0" in let p1 := fresh "p1" in let E := fresh "Eb" in let Hl := fresh "Hl" in
  destruct Hb as (p0 & p1 & E & Hl); unfold extract_set; rewrite E; cbn [Z.eqb Pos.eqb].

(** 15 *)
Lemma doc15_vals : forall cv (F : node -> list (list field)) l,
  (forall n, map fval (concat (F n)) = vals15 cv n) -> map fval (concat (flat_map F l)) = flat_map (vals15 cv) l.
Proof.
  intros cv F l H. induction l as [|n l IH]; [reflexivity|]. cbn [flat_map]. rewrite concat_app, map_app, IH, H. reflexivity.
Qed.
Lemma Forall_flat : forall A B (P : B -> Prop) (f : A -> list B) l, (forall a, In a l -> Forall P (f a)) -> Forall P (flat_map f l).
Proof.
  intros A B P f l H. rewrite Forall_forall. intros x Hx. apply in_flat_map in Hx as (a & Ha & Hx). specialize (H a Ha). rewrite Forall_forall in H. auto.
Qed.
Lemma rd15 : forall l block ps ho, block_lines block ps -> Forall2 (line_of false sep_all anyroom) (map fst ps) (flat_map doc15 l) ->
  extract_set 15 block ho = Ok (read15 l).
Proof.
  intros l block ps ho Hb H. open_block Hb. unfold extract15. rewrite block_drop by assumption. cbn [skipn].
  destruct (lines_join _ _ _ _ _ H) as (toks & -> & Ht).
  { apply Forall_flat. intros n _. repeat constructor. }
  { apply Forall_flat. intros n _. repeat constructor. }
  rewrite (toks_floats_id _ _ Ht). cbn [rbind try_any].
  rewrite (doc15_vals (rd 5)) by reflexivity.
  destruct (every_nodes (rd 5) l) as (-> & -> & -> & -> & -> & -> & ->). reflexivity.
Qed.

(** 2411 *)
Lemma rd2411 : forall l block ps ho, block_lines block ps -> Forall2 (line_of true sep_next anyroom) (map fst ps) (flat_map doc2411 l) ->
  Forall (fun n => f_valid (n_x n) = true /\ f_valid (n_y n) = true /\ f_valid (n_z n) = true) l ->
  extract_set 2411 block ho = Ok (read2411 l).
Proof.
  intros l block ps ho Hb H Hv. open_block Hb. unfold extract2411. rewrite block_keep by assumption. cbn [skipn]. rewrite join_whole.
  destruct (lines_split _ _ _ ps _ (lines_tail _ _ (lines_tail _ _ Hl)) H) as (toks & -> & Ht).
  { apply Forall_flat. intros n _. repeat constructor. }
  rewrite (toks_floats _ _ _ _ unD_d_to_E Ht). cbn [rbind try_any].
  rewrite (doc15_vals (rd 16)) by reflexivity.
  destruct (every_nodes (rd 16) l) as (-> & -> & -> & -> & -> & -> & ->).
  rewrite Forall_forall in Hv.
  rewrite (map_ext_in (fun n => rd 16 (n_x n)) (fun n => n_x n)) by (intros n Hn; apply rd16_id; apply (Hv n Hn)).
  rewrite (map_ext_in (fun n => rd 16 (n_y n)) (fun n => n_y n)) by (intros n Hn; apply rd16_id; apply (Hv n Hn)).
  rewrite (map_ext_in (fun n => rd 16 (n_z n)) (fun n => n_z n)) by (intros n Hn; apply rd16_id; apply (Hv n Hn)).
  reflexivity.
Qed.

(** Taking the lines one by one. *)
Lemma line_next : forall (R : str -> list field -> Prop) ps f fs, Forall2 R (map fst ps) (f :: fs) -> lines_ok ps ->
  exists p qs, ps = p :: qs /\ R (fst p) f /\ line_end (snd p) /\ lines_ok qs /\ Forall2 R (map fst qs) fs.
Proof.
  intros R [|p qs] f fs H Hl; [inversion H|]. inversion H; subst. inversion Hl as [|? ? [_ He] Hl']; subst. exists p, qs. auto.
Qed.
Lemma line_none : forall (R : str -> list field -> Prop) (ps : list (str * str)), Forall2 R (map fst ps) [] -> ps = [].
Proof. intros R [|p qs] H; [reflexivity|inversion H]. Qed.
Ltac next p H Hl := let qs := fresh "qs" in let Hp := fresh "L" in let He := fresh "E" in let Hl' := fresh "Hl" in let H' := fresh "H" in
  destruct (line_next _ _ _ _ H Hl) as (p & qs & -> & Hp & He & Hl' & H'); clear H Hl; rename H' into H; rename Hl' into Hl.
Definition noreal (f : field) : bool := match f with DR _ _ _ => false | _ => true end.
Lemma header_whole : forall dx need room p fs mn widths types names vals, line_of dx need room (fst p) fs -> line_end (snd p) ->
  widths = map fwidth fs -> length types = length fs -> length names = length fs -> mn <= length fs ->
  negb dx || forallb noreal fs = true -> forallb (fun tf => hfits (fst tf) (snd tf)) (combine types fs) = true ->
  vals = put_all [] (combine names (map (fun tf => hval (fst tf) (snd tf)) (combine types fs))) ->
  parse_header_line (whole p) mn widths types names = Ok vals.
Proof.
  intros dx need room [l e] fs mn widths types names vals H He -> Ht Hn Hm Hr Hf ->. unfold whole. cbn [fst snd] in *. apply (header_line need room); try assumption.
  - destruct dx; [|assumption]. apply (no_real true); assumption.
  - apply line_end_ws. assumption.
Qed.
Lemma text_whole : forall dx need room p s k, line_of dx need room (fst p) [DT 80 s] -> line_end (snd p) ->
  parse_header_line (whole p) 1 [80] [1%Z] [k] = Ok [(KS k, VStr (strip (firstn 80 s)))].
Proof. intros dx need room [l e] s k H He. apply (header_text dx need room); [assumption|apply line_end_ws; assumption]. Qed.
(** The record of line [p] is a header line: its fields are put in. *)
Ltac rd_hdr := first
  [ erewrite text_whole by eassumption; cbn [rbind]
  | erewrite header_whole; [|eassumption|eassumption|reflexivity|reflexivity|reflexivity|cbn; lia|reflexivity|reflexivity|reflexivity]; cbn [rbind] ].

(** 82 *)
Lemma I10s_vals : forall k l, 0 < k -> map fval (concat (map I10s (rows_of k l))) = map float_of_Z l.
Proof.
  intros k l Hk. rewrite <- (rows_concat _ k l Hk) at 2. induction (rows_of k l) as [|r rs IH]; [reflexivity|].
  cbn [map concat]. rewrite !map_app, IH. unfold I10s. rewrite map_map. reflexivity.
Qed.
Lemma I10s_ints : forall k l, 0 < k -> map ival (concat (map I10s (rows_of k l))) = l.
Proof.
  intros k l Hk. rewrite <- (rows_concat _ k l Hk) at 2. induction (rows_of k l) as [|r rs IH]; [reflexivity|].
  cbn [map concat]. rewrite !map_app, IH. unfold I10s. rewrite map_map. cbn [ival]. rewrite map_id. reflexivity.
Qed.
Lemma I10s_nums : forall l, nums sep_next (I10s l).
Proof. intro l. apply nums_all. unfold I10s. rewrite Forall_map, Forall_forall. intros z _. split; reflexivity. Qed.
Lemma rows_nums : forall rows, Forall (nums sep_next) (map I10s rows).
Proof. intro rows. rewrite Forall_map, Forall_forall. intros l _. apply I10s_nums. Qed.
Lemma rd82 : forall t block ps ho, block_lines block ps -> Forall2 (line_of false sep_next anyroom) (map fst ps) (doc82 t) ->
  extract_set 82 block ho = Ok (read82 t).
Proof.
  intros t block ps ho Hb H. open_block Hb. unfold extract82. rewrite block_keep by assumption. clear Eb.
  apply lines_tail, lines_tail in Hl. unfold doc82 in H. cbn [app] in H. next p2 H Hl. next p3 H Hl.
  cbn [map ln nth_error of_option rbind skipn]. rd_hdr. rd_hdr. rewrite join_whole.
  destruct (lines_split _ _ _ qs0 _ Hl H (rows_nums _)) as (toks & -> & Ht).
  rewrite (toks_floats_id _ _ Ht), I10s_vals by lia. reflexivity.
Qed.

(** 151 *)
Lemma rd151 : forall h block ps ho, block_lines block ps -> Forall2 (line_of false sep_none anyroom) (map fst ps) (doc151 h) ->
  extract_set 151 block ho = Ok (read151 h).
Proof.
  intros h block ps ho Hb H. open_block Hb. unfold extract151, recs151, DsHeaders.H. rewrite block_keep by assumption. clear Eb.
  apply lines_tail, lines_tail in Hl. unfold doc151 in H. next p2 H Hl. next p3 H Hl. next p4 H Hl. next p5 H Hl. next p6 H Hl. next p7 H Hl. next p8 H Hl.
  cbn [map]. cbn [header_recs h_line h_min h_widths h_types h_names ln nth_error of_option rbind].
  rd_hdr. rd_hdr. rd_hdr. rd_hdr. rd_hdr. rd_hdr. rd_hdr. reflexivity.
Qed.

(** 164 *)
Lemma rd164 : forall u block ps ho, block_lines block ps -> Forall2 (line_of true sep_reals anyroom) (map fst ps) (doc164 u) ->
  Forall (fun f => f_valid f = true) [u_len u; u_force u; u_temp u; u_off u] ->
  extract_set 164 block ho = Ok (read164 u).
Proof.
  intros u block ps ho Hb H Hv. open_block Hb. unfold extract164, DsHeaders.H. rewrite block_keep by assumption. clear Eb.
  apply lines_tail, lines_tail in Hl. unfold doc164 in H. next p2 H Hl.
  cbn [map]. cbn [header_recs h_line h_min h_widths h_types h_names ln nth_error of_option rbind skipn].
  rd_hdr. rewrite join_whole.
  destruct (lines_split _ _ _ qs _ Hl H) as (toks & -> & Ht).
  { repeat constructor. }
  cbn [concat D25s map app] in Ht.
  inversion Ht as [|t1 ? r1 ? T1 Ht1]; subst. inversion Ht1 as [|t2 ? r2 ? T2 Ht2]; subst. inversion Ht2 as [|t3 ? r3 ? T3 Ht3]; subst.
  inversion Ht3 as [|t4 ? r4 ? T4 Ht4]; subst. inversion Ht4; subst.
  unfold factor164. cbn [ln nth_error of_option rbind].
  rewrite (real_read _ _ _ _ unD_164 T1), (real_read _ _ _ _ unD_164 T2), (real_read _ _ _ _ unD_164 T3), (real_read _ _ _ _ unD_164 T4). cbn [rbind].
  rewrite Forall_forall in Hv. rewrite !rd16_id by (apply Hv; cbn; tauto). reflexivity.
Qed.

(** 1858 *)
Definition sizes1858 (q : qual) : Prop := length (q_ints q) = 9 /\ length (q_z q) = 4 /\ length (q_user q) = 5.
Lemma rd1858 : forall q block ps ho, block_lines block ps -> Forall2 (line_of false sep_none anyroom) (map fst ps) (doc1858_1 q :: doc1858_tl q) ->
  sizes1858 q -> extract_set 1858 block ho = Ok (read1858 q).
Proof.
  intros q block ps ho Hb H (Li & Lz & Lu). open_block Hb. unfold extract1858, recs1858, DsHeaders.H. rewrite block_keep by assumption. clear Eb.
  apply lines_tail, lines_tail in Hl. unfold doc1858_tl, read1858 in *.
  destruct (list4 _ _ Lz) as (z1 & z2 & z3 & z4 & Ez). destruct (list5 _ _ Lu) as (u1 & u2 & u3 & u4 & u5 & Eu). destruct (list9 _ _ Li) as (i1 & i2 & i3 & i4 & i5 & i6 & i7 & i8 & i9 & Ei).
  rewrite Ez, Eu, Ei in *. unfold doc1858_1 in H.
  next p2 H Hl. next p3 H Hl. next p4 H Hl. next p5 H Hl. next p6 H Hl. next p7 H Hl. next p8 H Hl.
  cbn [map firstn]. cbn [header_recs h_line h_min h_widths h_types h_names ln nth_error of_option rbind].
  rd_hdr. rd_hdr. rd_hdr. rd_hdr. rd_hdr. reflexivity.
Qed.

(** 2400 *)
Lemma chop_cols : forall w cols s n, Forall (fun c => length c = w) cols -> n = length cols -> chop w n (concat cols ++ s) = cols.
Proof.
  intros w cols s n H ->. induction H as [|c cols Hc _ IH]; [reflexivity|]. cbn [length chop concat]. rewrite <- app_assoc.
  rewrite firstn_app_exact, skipn_app_exact by assumption. rewrite IH. reflexivity.
Qed.
Lemma cols_ints : forall dx need first w cols l, columns dx need first cols (map (DI w) l) -> parse_ints cols = Ok l.
Proof.
  intros dx need first w cols. revert first. induction cols as [|t cols IH]; intros first [|z l] H; cbn [map columns] in H; try contradiction; [reflexivity|].
  destruct H as (H1 & _ & H3). unfold parse_ints, rmap in *. cbn [map rseq]. rewrite (holds_int _ _ _ _ H1). cbn [rbind]. rewrite (IH _ _ H3). reflexivity.
Qed.
Lemma rd2400 : forall h block ps ho, block_lines block ps -> Forall2 (line_of false sep_none anyroom) (map fst ps) (doc2400 h) ->
  length (k_mask h) = 32 -> extract_set 2400 block ho = Ok (read2400 h).
Proof.
  intros h block ps ho Hb H Hm. open_block Hb. unfold extract2400, DsHeaders.H. rewrite block_keep by assumption. clear Eb.
  apply lines_tail, lines_tail in Hl. unfold doc2400 in H. next p2 H Hl. next p3 H Hl. next p4 H Hl. next p5 H Hl. next p6 H Hl. next p7 H Hl.
  cbn [map]. cbn [header_recs h_line h_min h_widths h_types h_names ln nth_error of_option rbind].
  rd_hdr. rd_hdr. rd_hdr.
  assert (Ec : parse_ints (chop 2 32 (whole p5)) = Ok (k_mask h)).
  { destruct L2 as (cols & k & El & Hc & _). unfold whole. rewrite El, <- app_assoc.
    destruct (cols_width _ _ _ 2 _ _ Hc) as [G1 G2]. { rewrite Forall_map, Forall_forall. intros z _. split; reflexivity. }
    rewrite chop_cols; [|assumption|etransitivity; [|symmetry; exact G2]; rewrite map_length; symmetry; assumption]. eapply cols_ints. exact Hc. }
  rewrite Ec. cbn [rbind]. rd_hdr. rd_hdr. reflexivity.
Qed.

(** Lines that occur once per entry. *)
Lemma every_map : forall A B (f : A -> B) l k step, every k step (map f l) = map f (every k step l).
Proof.
  intros A B f l k step. unfold every. revert k. induction l as [|x l IH]; intro k; [reflexivity|]. cbn [map every_aux].
  destruct k; cbn [map]; rewrite IH; reflexivity.
Qed.
Lemma every_doc : forall A (R : str -> list field -> Prop) (F : A -> list (list field)) m l ps j,
  Forall2 R (map fst ps) (flat_map F l) -> lines_ok ps -> (forall a, length (F a) = m) -> j < m ->
  lines_ok (every j m ps) /\ Forall2 R (map fst (every j m ps)) (map (fun a => nth j (F a) []) l).
Proof.
  intros A R F m l ps j H Hl Hm Hj.
  assert (H' : Forall2 (fun p fs => R (fst p) fs) ps (flat_map F l)).
  { clear -H. remember (map fst ps) as ls eqn:E. revert ps E. induction H; intros [|p ps] E; inversion E; subst; constructor; auto. }
  clear H. destruct (Forall2_flat _ _ _ _ _ _ _ H') as (pss & -> & H). clear H'.
  assert (E : every j m (concat pss) = map (fun g => nth j g ([], [])) pss).
  { rewrite <- (map_id pss) at 1. rewrite <- flat_map_concat_map. apply every_table; [assumption|]. intros g Hg.
    assert (Lg : length g = m).
    { clear -H Hg Hm. induction H as [|x a pss l Hx _ IH]; [destruct Hg|]. destruct Hg as [->|Hg]; [|auto]. etransitivity; [exact (Forall2_len _ _ _ _ _ Hx)|apply Hm]. }
    split; [assumption|]. apply nth_error_nth'. unfold str in *. lia. }
  rewrite E. clear E. split.
  - induction H as [|g a pss l Hg _ IH]; [constructor|]. cbn [concat] in Hl. unfold lines_ok in *. apply Forall_app in Hl as [Hl1 Hl2].
    cbn [map]. constructor; [|auto]. rewrite Forall_forall in Hl1. apply Hl1. apply nth_In. assert (Lg := Forall2_len _ _ _ _ _ Hg). rewrite Hm in Lg. unfold str in *. lia.
  - clear Hl. induction H as [|g a pss l Hg _ IH]; [constructor|]. cbn [map]. constructor; [|assumption].
    assert (Lg := Forall2_len _ _ _ _ _ Hg). rewrite Hm in Lg. clear -Hg Hj Lg. assert (Hj' : j < length g) by (unfold str in *; lia). clear Hj Lg.
    revert j Hj'. induction Hg as [|p fs g G Hp _ IH]; intros j Hj; [cbn in Hj; lia|]. destruct j; cbn [nth]; [assumption|]. apply IH. cbn in Hj. lia.
Qed.
Lemma every_two : forall A (a b : A) l j m, every (2 + j) m (a :: b :: l) = every j m l.
Proof. intros. exact (every_skip _ [a; b] l j m). Qed.
Lemma every_four : forall A (a b c d : A) l j m, every (4 + j) m (a :: b :: c :: d :: l) = every j m l.
Proof. intros. exact (every_skip _ [a; b; c; d] l j m). Qed.

(** Reals in columns of width [w] that fill their lines. *)
Lemma lines_fixed : forall need room w ls recs, Forall2 (line_of false need room) ls recs ->
  Forall (fun fs => (forall k, room fs k -> k = 0) /\ Forall (fun f => num f = true /\ fwidth f = w) fs) recs -> 0 < w ->
  fixed_floats w (join ls) = Ok (map fval (concat recs)).
Proof.
  intros need room w ls recs H Hr Hw.
  assert (G : exists segs, join ls = concat segs /\ Forall (fun s => length s = w) segs /\ parse_floats segs = Ok (map fval (concat recs))).
  { induction H as [|line fs ls recs Hl _ IH]; [exists []; repeat split; constructor|]. inversion Hr as [|? ? [Hk Hf] Hr']; subst.
    destruct (IH Hr') as (segs & E1 & E2 & E3). destruct Hl as (cols & k & -> & Hc & Hk'). apply Hk in Hk'. subst k. cbn [repeat]. rewrite app_nil_r.
    destruct (cols_width _ _ _ w _ _ Hc Hf) as [G1 _].
    assert (Hn : forallb num fs = true) by (apply forallb_forall; rewrite Forall_forall in Hf; intros f Hi; apply (Hf f Hi)).
    assert (G2 := cols_floats _ _ _ _ Hc Hn).
    exists (cols ++ segs). split; [unfold join in *; cbn [concat]; rewrite E1, concat_app; reflexivity|].
    split; [apply Forall_app; auto|]. unfold parse_floats, rmap in *. rewrite map_app. cbn [concat]. rewrite map_app.
    clear -G2 E3. revert G2. generalize (map fval fs). induction cols as [|c cols IH]; intros v G2.
    - cbn in G2. injection G2 as <-. exact E3.
    - cbn [map rseq app] in *. destruct (py_float c) as [x|]; [|discriminate]. cbn [rbind] in *.
      destruct (rseq (map py_float cols)) as [t|]; [|discriminate]. cbn [rbind] in G2. injection G2 as <-. rewrite (IH t eq_refl). reflexivity. }
  destruct G as (segs & -> & E2 & E3). unfold fixed_floats. rewrite (concat_length_const N w segs E2), Nat.div_mul by lia. rewrite chop_segs; assumption.
Qed.

(** 18 *)
Definition room18 (fs : list field) (k : nat) : Prop := match fs with DR _ _ _ :: _ => k = 0 | _ => True end.
Lemma flat_vals : forall A (F : A -> list field) l, map fval (concat (map F l)) = flat_map (fun a => map fval (F a)) l.
Proof. intros A F l. induction l as [|a l IH]; [reflexivity|]. cbn [map concat flat_map]. rewrite map_app, IH. reflexivity. Qed.
Lemma flat_ivals : forall A (F : A -> list field) l, map ival (concat (map F l)) = flat_map (fun a => map ival (F a)) l.
Proof. intros A F l. induction l as [|a l IH]; [reflexivity|]. cbn [map concat flat_map]. rewrite map_app, IH. reflexivity. Qed.
Lemma rd18 : forall l block ps ho, block_lines block ps -> Forall2 (line_of false sep_ints room18) (map fst ps) (flat_map doc18 l) ->
  extract_set 18 block ho = Ok (read18 l).
Proof.
  intros l block ps ho Hb H. open_block Hb. unfold extract18. rewrite block_drop by assumption. clear Eb. cbv zeta.
  apply lines_tail, lines_tail in Hl.
  assert (D := fun j => every_doc _ _ _ 4 _ _ j H Hl (fun _ => eq_refl)). clear H Hl.
  assert (V : forall j, every (2 + j) 4 (fst p0 :: fst p1 :: map fst ps) = map fst (every j 4 ps)) by (intro j; rewrite every_two, every_map; reflexivity).
  assert (V0 := V 0). assert (V1 := V 1). assert (V2 := V 2). assert (V3 := V 3). cbn [Nat.add] in V0, V1, V2, V3. unfold str in *. rewrite V0, V1, V2, V3. clear V V0 V1 V2 V3.
  destruct (D 0 ltac:(lia)) as [L0 H0]. destruct (D 1 ltac:(lia)) as [L1 H1]. destruct (D 2 ltac:(lia)) as [L2 H2]. destruct (D 3 ltac:(lia)) as [L3 H3]. clear D. unfold doc18 in H0, H1, H2, H3. cbn [nth] in H0, H1, H2, H3.
  destruct (lines_join _ _ _ _ _ H0) as (toks & -> & Ht).
  { rewrite Forall_map, Forall_forall. intros c _. repeat constructor. }
  { rewrite Forall_map, Forall_forall. intros c _. repeat constructor. }
  rewrite (toks_floats_id _ _ Ht). cbn [rbind]. clear Ht.
  rewrite (lines_fixed _ _ 13 _ _ H2); [|rewrite Forall_map, Forall_forall; intros c _; destruct (c_o c) as [[? ?] ?]; destruct (c_x c) as [[? ?] ?]; split; [auto|repeat constructor]|lia].
  rewrite (lines_fixed _ _ 13 _ _ H3); [|rewrite Forall_map, Forall_forall; intros c _; destruct (c_xz c) as [[? ?] ?]; split; [auto|repeat constructor]|lia].
  cbn [rbind]. rewrite !flat_vals. cbv beta.
  set (tab := flat_map (fun a => map fval (E13s (pt_list (c_o a) ++ pt_list (c_x a)))) l).
  set (co := fun j a => rd 5 (nth j (pt_list (c_o a)) f_zero)). set (cx := fun j a => rd 5 (nth j (pt_list (c_x a)) f_zero)).
  assert (Eo : forall j, j < 3 -> every j 6 tab = map (co j) l).
  { intros j Hj. unfold tab. apply every_table1; [lia|]. intro a. destruct (c_o a) as [[o1 o2] o3] eqn:E1. destruct (c_x a) as [[x1 x2] x3].
    unfold co. rewrite E1. cbn [pt_list app map length]. split; [reflexivity|]. destruct j as [|[|[|j]]]; [reflexivity|reflexivity|reflexivity|lia]. }
  assert (Ex : forall j, j < 3 -> every (3 + j) 6 tab = map (cx j) l).
  { intros j Hj. unfold tab. apply every_table1; [lia|]. intro a. destruct (c_o a) as [[o1 o2] o3]. destruct (c_x a) as [[x1 x2] x3] eqn:E1.
    unfold cx. rewrite E1. cbn [pt_list app map length]. split; [reflexivity|]. destruct j as [|[|[|j]]]; [reflexivity|reflexivity|reflexivity|lia]. }
  rewrite (Eo 0), (Eo 1), (Eo 2) by lia.
  change (every 3 6 tab) with (every (3 + 0) 6 tab). change (every 4 6 tab) with (every (3 + 1) 6 tab). change (every 5 6 tab) with (every (3 + 2) 6 tab).
  rewrite (Ex 0), (Ex 1), (Ex 2) by lia. rewrite !stack3T_points. cbn [rbind].
  set (tab2 := flat_map (fun a => map fval (E13s (pt_list (c_xz a)))) l). set (cz := fun j a => rd 5 (nth j (pt_list (c_xz a)) f_zero)).
  assert (Ez : forall j, j < 3 -> every j 3 tab2 = map (cz j) l).
  { intros j Hj. unfold tab2. apply every_table1; [lia|]. intro a. destruct (c_xz a) as [[x1 x2] x3] eqn:E1.
    unfold cz. rewrite E1. cbn [pt_list map length]. split; [reflexivity|]. destruct j as [|[|[|j]]]; [reflexivity|reflexivity|reflexivity|lia]. }
  rewrite (Ez 0), (Ez 1), (Ez 2) by lia. rewrite stack3T_points. cbn [rbind try_any].
  assert (Ei : forall k g, k < 5 -> (forall a, nth_error (ints18 a) k = Some (g a)) ->
    every k 5 (flat_map (fun a => map fval (I10s [c_num a; c_type a; c_ref a; c_color a; c_method a])) l) = map (fun a => float_of_Z (g a)) l).
  { intros k g Hk Hg. apply every_table1; [assumption|]. intro a. split; [reflexivity|]. exact (nth_map _ _ float_of_Z _ _ _ (Hg a)). }
  rewrite (Ei 0 c_num), (Ei 1 c_type), (Ei 2 c_ref), (Ei 3 c_color), (Ei 4 c_method) by (reflexivity || lia).
  unfold read18, rd_pts. rewrite !map_map.
  assert (Epts : forall g, map (fun p => map (fun f => VFloat (rd 5 f)) (pt_list (g p))) l
     = map (fun a => map VFloat [rd 5 (nth 0 (pt_list (g a)) f_zero); rd 5 (nth 1 (pt_list (g a)) f_zero); rd 5 (nth 2 (pt_list (g a)) f_zero)]) l).
  { intro g. apply map_ext. intro a. destruct (g a) as [[x y] z]. reflexivity. }
  rewrite !Epts. unfold co, cx, cz.
  assert (En : map (fun x : str * str => VStr (strip (fst x))) (every 1 4 ps) = map (fun a => VStr (strip (c_name a))) l).
  { clear -H1. revert H1. generalize (every 1 4 ps). intros qs H1. remember (map fst qs) as ls eqn:El. remember (map (fun a => [DT 40 (c_name a)]) l) as rs eqn:Er.
    revert qs l El Er. induction H1 as [|line r ls rs Hx _ IH]; intros [|q qs] [|a l] El Er; inversion El; inversion Er; subst; [reflexivity|].
    cbn [map]. f_equal; [|apply IH; reflexivity]. destruct (text_line _ _ _ _ _ _ Hx) as (b & E). f_equal. etransitivity; [exact (f_equal strip E)|]. apply strip_by_post. apply blanks_ws. }
  unfold str in *. rewrite En. reflexivity.
Qed.

(** 2420 *)
Lemma texts_whole : forall dx need room w A (g : A -> str) (cv : str -> str) qs l,
  lines_ok qs -> Forall2 (line_of dx need room) (map fst qs) (map (fun a => [DT w (g a)]) l) ->
  (forall s b e, forallb is_ws b = true -> forallb is_ws e = true -> cv ((s ++ b) ++ e) = cv s) ->
  map (fun p => VStr (cv (whole p))) qs = map (fun a => VStr (cv (g a))) l.
Proof.
  intros dx need room w A g cv qs l Hq H Hcv. remember (map fst qs) as ls eqn:El. remember (map (fun a => [DT w (g a)]) l) as rs eqn:Er.
  revert qs l Hq El Er. induction H as [|line r ls rs Hx _ IH]; intros [|q qs] [|a l] Hq El Er; inversion El; inversion Er; subst; [reflexivity|].
  inversion Hq as [|? ? [_ He] Hq']; subst. cbn [map]. f_equal; [|apply IH; auto]. destruct (text_line _ _ _ _ _ _ Hx) as (b & E). unfold whole. rewrite E.
  f_equal. apply Hcv; [apply blanks_ws|apply line_end_ws; assumption].
Qed.
Lemma rstrip_line2 : forall s b e, forallb is_ws b = true -> forallb is_ws e = true -> rstrip ((s ++ b) ++ e) = rstrip s.
Proof. intros s b e Hb He. unfold rstrip. rewrite !rstrip_by_ws by assumption. reflexivity. Qed.
Lemma ints_of : forall A (F : A -> list Z) l, forallb inum (concat (map (fun a => I10s (F a)) l)) = true.
Proof.
  intros A F l. apply forallb_forall. intros f Hf. apply in_concat in Hf as (x & Hx & Hf). apply in_map_iff in Hx as (a & <- & _).
  unfold I10s in Hf. apply in_map_iff in Hf as (z & <- & _). reflexivity.
Qed.
Lemma rd2420 : forall p block ps ho, block_lines block ps -> Forall2 (line_of true sep_next anyroom) (map fst ps) (doc2420p p) ->
  Forall (fun s => matv (s_mat s)) (p_cs p) -> extract_set 2420 block ho = Ok (read2420 p).
Proof.
  intros p block ps ho Hb H Hv. open_block Hb. unfold extract2420. rewrite block_keep by assumption. clear Eb. cbv zeta.
  apply lines_tail, lines_tail in Hl. unfold doc2420p in H. cbn [app] in H. next p2 H Hl. next p3 H Hl.
  cbn [map ln nth_error of_option rbind].
  assert (Eu : py_int (whole p2) = Ok (p_uid p)).
  { destruct L as (cols & k & E9 & Hc & _). destruct cols as [|c [|? ?]]; cbn [columns] in Hc; try contradiction; [|destruct Hc as (_ & _ & [])].
    destruct Hc as ((_ & a & b & ->) & _). unfold whole. rewrite E9. cbn [concat]. rewrite app_nil_r, <- !app_assoc.
    apply py_int_padded; [apply blanks_num|]. rewrite !forallb_app, !blanks_num. apply line_end_num. assumption. }
  rewrite Eu. cbn [rbind].
  assert (Lm : forall s, length (doc2420 s) = 6) by (intro s; unfold doc2420; destruct (s_mat s) as [[[a b] c] e]; reflexivity).
  assert (D := fun j => every_doc _ _ _ 6 _ _ j H Hl Lm).
  assert (V : forall j, every (4 + j) 6 (whole p0 :: whole p1 :: whole p2 :: whole p3 :: @map (str * str) str whole qs0) = @map (str * str) str whole (every j 6 qs0))
    by (intro j; rewrite every_four, every_map; reflexivity).
  assert (V0 := V 0). assert (V1 := V 1). assert (V2 := V 2). assert (V3 := V 3). assert (V4 := V 4). assert (V5 := V 5). cbn [Nat.add] in V0, V1, V2, V3, V4, V5.
  every_is V0. every_is V1. every_is V2. every_is V3. every_is V4. every_is V5. clear V V0 V1 V2 V3 V4 V5. rewrite !join_whole.
  destruct (D 0 ltac:(lia)) as [L7 H0]. destruct (D 1 ltac:(lia)) as [L8 H1].
  unfold doc2420 in H0, H1. cbn [nth app] in H0, H1.
  destruct (lines_split _ _ _ _ _ L7 H0) as (toks & -> & Ht). { rewrite Forall_map, Forall_forall. intros s _. apply I10s_nums. }
  rewrite (toks_ints _ _ _ (ints_of _ (fun a => [s_label a; s_type a; s_color a]) _) Ht).
  rewrite flat_ivals. cbn [rbind]. clear Ht.
  assert (Em : forall j, j < 4 -> parse_floats (map d_to_e (split (text_of (every (2 + j) 6 qs0)))) = Ok (flat_map (fun s => mrow j (s_mat s)) (p_cs p))).
  { intros j Hj. destruct (D (2 + j) ltac:(lia)) as [Lj Hj2].
    assert (En : map (fun a => nth (2 + j) (doc2420 a) []) (p_cs p) = map (fun a => D25s (mrow j (s_mat a))) (p_cs p)).
    { apply map_ext. intro s. unfold doc2420, mrow. cbn [app Nat.add nth]. destruct (s_mat s) as [[[a b] c] e]. destruct j as [|[|[|[|j]]]]; [reflexivity|reflexivity|reflexivity|reflexivity|lia]. }
    rewrite En in Hj2. destruct (lines_split _ _ _ _ _ Lj Hj2) as (toks2 & -> & Ht).
    { rewrite Forall_map, Forall_forall. intros s _. apply nums_all. unfold D25s. rewrite Forall_map, Forall_forall. intros f _. split; reflexivity. }
    rewrite (toks_floats _ _ _ _ unD_d_to_e Ht). rewrite flat_vals. f_equal. rewrite !flat_map_concat_map. f_equal. apply map_ext_in. intros s Hs.
    rewrite Forall_forall in Hv. destruct (matv_row _ j (Hv s Hs) Hj) as (x & y & z & -> & Hx & Hy & Hz). unfold D25s. cbn [map fval]. rewrite !rd16_id by assumption. reflexivity. }
  assert (E1 := Em 0 ltac:(lia)). assert (E2 := Em 1 ltac:(lia)). assert (E3 := Em 2 ltac:(lia)). assert (E4 := Em 3 ltac:(lia)). cbn [Nat.add] in E1, E2, E3, E4.
  rewrite E1, E2, E3, E4. cbn [rbind]. clear E1 E2 E3 E4.
  assert (Hlen : (length (flat_map (fun s => mrow 0 (s_mat s)) (p_cs p)) + 2) / 3 = length (p_cs p)).
  { assert (E3 : length (flat_map (fun s => mrow 0 (s_mat s)) (p_cs p)) = length (p_cs p) * 3).
    { rewrite flat_map_concat_map. rewrite (concat_length_const _ 3); [rewrite map_length; reflexivity|]. rewrite Forall_map, Forall_forall. intros s Hs.
      rewrite Forall_forall in Hv. destruct (matv_row _ 0 (Hv s Hs) ltac:(lia)) as (x & y & z & -> & _). reflexivity. }
    rewrite E3. rewrite Nat.add_comm, Nat.div_add by lia. reflexivity. }
  rewrite Hlen, mats_ok by assumption. cbn [rbind].
  assert (Ei : forall k g, k < 3 -> (forall a, nth_error (ints2420 a) k = Some (g a)) ->
    every k 3 (flat_map (fun a => map ival (I10s [s_label a; s_type a; s_color a])) (p_cs p)) = map g (p_cs p)).
  { intros k g Hk Hg. apply every_table1; [assumption|]. intro a. split; [reflexivity|]. exact (Hg a). }
  rewrite (Ei 0 s_label), (Ei 1 s_type), (Ei 2 s_color) by (reflexivity || lia).
  assert (E5 : map (fun s => VStr (rstrip s)) (@map (str * str) str whole (every 1 6 qs0)) = map (fun s => VStr (rstrip (s_name s))) (p_cs p)).
  { rewrite map_map. apply (texts_whole true sep_next anyroom 80 _ s_name rstrip); [assumption|assumption|exact rstrip_line2]. }
  rewrite E5. assert (E6 : rstrip (whole p3) = rstrip (RtCs.p_name p)).
  { destruct (text_line _ _ _ _ _ _ L0) as (b & E7). unfold whole. rewrite E7. apply rstrip_line2; [apply blanks_ws|apply line_end_ws; assumption]. }
  rewrite E6. unfold read2420. rewrite !map_map. reflexivity.
Qed.
