(** Reading documented blocks of the type 58, as text and in binary form. *)
From Coq Require Import String List NArith ZArith Bool Lia.
Import ListNotations.
From Verif Require Import PyBase PyNum PyVal Utf8 Tools DsNodes DsHeaders DsGroups Ds55 Ds58 Ds2414 Uff Facts IntFacts FloatFacts DecFacts FloatText FloatExact DictFacts
  Scan Container Append ContainerThms Utf8Facts Lines Stored Cells Rows RtNodes RtCs RtHeads RtElems RtGroups RtNodal RtFun RtFunSet RtAnalysis Witness
  PropNodes PropHeads PropGroups PropNodal PropFun PropAnalysis PropHistory Layout PropLayout Reading ReadNodes ReadSets Read55.
From Coq Require Import Lia.
Open Scope string_scope.
Open Scope list_scope.
Open Scope nat_scope.

(* ------------------------------------------------------------------ *)
(** ** Decoding stops at every ASCII character *)

Lemma decode_eq : forall b0 r0, utf8_decode (b0 :: r0) = (
      if b0 <? 128 then b0 :: utf8_decode r0
      else if (194 <=? b0) && (b0 <=? 223) then
        match r0 with
        | [] => [REPL]
        | b1 :: r1 => if is_cont b1 then ((b0 - 192) * 64 + (b1 - 128)) :: utf8_decode r1
                      else REPL :: utf8_decode r0
        end
      else if (224 <=? b0) && (b0 <=? 239) then
        match r0 with
        | [] => [REPL]
        | b1 :: r1 =>
            if ok2_3 b0 b1 then
              match r1 with
              | [] => [REPL]
              | b2 :: r2 =>
                  if is_cont b2
                  then ((b0 - 224) * 4096 + (b1 - 128) * 64 + (b2 - 128)) :: utf8_decode r2
                  else REPL :: utf8_decode r1
              end
            else REPL :: utf8_decode r0
        end
      else if (240 <=? b0) && (b0 <=? 244) then
        match r0 with
        | [] => [REPL]
        | b1 :: r1 =>
            if ok2_4 b0 b1 then
              match r1 with
              | [] => [REPL]
              | b2 :: r2 =>
                  if is_cont b2 then
                    match r2 with
                    | [] => [REPL]
                    | b3 :: r3 =>
                        if is_cont b3
                        then ((b0 - 240) * 262144 + (b1 - 128) * 4096 + (b2 - 128) * 64 + (b3 - 128))
                               :: utf8_decode r3
                        else REPL :: utf8_decode r2
                    end
                  else REPL :: utf8_decode r1
              end
            else REPL :: utf8_decode r0
        end
      else REPL :: utf8_decode r0)%N.
Proof. reflexivity. Qed.
Lemma decode_ascii : forall c b, (c < 128)%N -> utf8_decode (c :: b) = c :: utf8_decode b.
Proof. intros c b H. rewrite decode_eq. rewrite (proj2 (N.ltb_lt _ _) H). reflexivity. Qed.
Lemma cont_ascii : forall c, (c < 128)%N -> is_cont c = false.
Proof. intros c H. unfold is_cont. rewrite (proj2 (N.leb_gt _ _) H). reflexivity. Qed.
Lemma ok23_ascii : forall b c, (c < 128)%N -> ok2_3 b c = false.
Proof. intros b c H. unfold ok2_3. rewrite cont_ascii by assumption. reflexivity. Qed.
Lemma ok24_ascii : forall b c, (c < 128)%N -> ok2_4 b c = false.
Proof. intros b c H. unfold ok2_4. rewrite cont_ascii by assumption. reflexivity. Qed.
Lemma decode_cut : forall n a c b, length a <= n -> (c < 128)%N -> utf8_decode (a ++ c :: b) = utf8_decode a ++ c :: utf8_decode b.
Proof.
  induction n as [|n IH]; intros a c b Hn Hc.
  - destruct a; [|cbn in Hn; lia]. apply decode_ascii. assumption.
  - destruct a as [|b0 a]; [apply decode_ascii; assumption|]. cbn [length] in Hn. cbn [app]. rewrite (decode_eq b0 (a ++ c :: b)), (decode_eq b0 a).
    assert (Ia : utf8_decode (a ++ c :: b) = utf8_decode a ++ c :: utf8_decode b) by (apply IH; [lia|assumption]).
    destruct (b0 <? 128)%N; [cbn [app]; rewrite Ia; reflexivity|].
    destruct a as [|b1 a].
    + cbn [app] in *. rewrite cont_ascii, ok23_ascii, ok24_ascii by assumption. rewrite Ia. cbn [utf8_decode app].
      destruct (_ && _)%bool; [reflexivity|]. destruct (_ && _)%bool; [reflexivity|]. destruct (_ && _)%bool; reflexivity.
    + cbn [app length] in *. assert (Ib : utf8_decode (a ++ c :: b) = utf8_decode a ++ c :: utf8_decode b) by (apply IH; [lia|assumption]).
      rewrite Ia. destruct (_ && _)%bool; [destruct (is_cont b1); [rewrite Ib|]; reflexivity|].
      destruct (_ && _)%bool.
      * destruct (ok2_3 b0 b1); [|reflexivity]. destruct a as [|b2 a].
        { cbn [app] in *. rewrite cont_ascii by assumption. rewrite Ib. reflexivity. }
        cbn [app length] in *. assert (Ic : utf8_decode (a ++ c :: b) = utf8_decode a ++ c :: utf8_decode b) by (apply IH; [lia|assumption]).
        rewrite Ib. destruct (is_cont b2); [rewrite Ic|]; reflexivity.
      * destruct (_ && _)%bool; [|reflexivity]. destruct (ok2_4 b0 b1); [|reflexivity]. destruct a as [|b2 a].
        { cbn [app] in *. rewrite cont_ascii by assumption. rewrite Ib. reflexivity. }
        cbn [app length] in *. assert (Ic : utf8_decode (a ++ c :: b) = utf8_decode a ++ c :: utf8_decode b) by (apply IH; [lia|assumption]).
        rewrite Ib. destruct (is_cont b2); [|reflexivity]. destruct a as [|b3 a].
        { cbn [app] in *. rewrite cont_ascii by assumption. rewrite Ic. reflexivity. }
        cbn [app length] in *. assert (Id : utf8_decode (a ++ c :: b) = utf8_decode a ++ c :: utf8_decode b) by (apply IH; [lia|assumption]).
        rewrite Ic. destruct (is_cont b3); [rewrite Id|]; reflexivity.
Qed.
Lemma decode_in : forall n b c, length b <= n -> (c < 128)%N -> In c (utf8_decode b) -> In c b.
Proof.
  induction n as [|n IH]; intros b c Hn Hc H.
  - destruct b; [destruct H|cbn in Hn; lia].
  - destruct b as [|b0 b]; [destruct H|]. cbn [length] in Hn. rewrite decode_eq in H. assert (I0 : In c (utf8_decode b) -> In c (b0 :: b)) by (intro G; right; apply IH; [lia|assumption|assumption]).
    destruct (N.ltb_spec b0 128); [destruct H as [->|H]; [left; reflexivity|auto]|].
    assert (R : REPL <> c) by (unfold REPL; lia).
    destruct ((194 <=? b0) && (b0 <=? 223))%N%bool eqn:E1.
    { apply andb_true_iff in E1 as [E1 _]. apply N.leb_le in E1.
      destruct b as [|b1 b]; [destruct H as [H|[]]; congruence|]. cbn [length] in Hn. destruct (is_cont b1) eqn:C1; [|destruct H as [H|H]; [congruence|auto]].
      destruct H as [H|H]; [unfold is_cont in C1; apply andb_true_iff in C1 as [C1 _]; apply N.leb_le in C1; lia|]. right. right. apply IH; [lia|assumption|assumption]. }
    destruct ((224 <=? b0) && (b0 <=? 239))%N%bool eqn:E2.
    { apply andb_true_iff in E2 as [E2 _]. apply N.leb_le in E2.
      destruct b as [|b1 b]; [destruct H as [H|[]]; congruence|]. cbn [length] in Hn. destruct (ok2_3 b0 b1) eqn:C1; [|destruct H as [H|H]; [congruence|auto]].
      destruct b as [|b2 b]; [destruct H as [H|[]]; congruence|]. cbn [length] in Hn. destruct (is_cont b2) eqn:C2.
      - destruct H as [H|H]; [|right; right; right; apply IH; [lia|assumption|assumption]].
        unfold ok2_3 in C1. apply andb_true_iff in C1 as [C1 _]. apply andb_true_iff in C1 as [C1 C3]. destruct (N.eqb_spec b0 224); [apply N.leb_le in C3; lia|lia].
      - destruct H as [H|H]; [congruence|]. right. right. apply IH; [cbn [length]; lia|assumption|assumption]. }
    destruct ((240 <=? b0) && (b0 <=? 244))%N%bool eqn:E3.
    { apply andb_true_iff in E3 as [E3 _]. apply N.leb_le in E3.
      destruct b as [|b1 b]; [destruct H as [H|[]]; congruence|]. cbn [length] in Hn. destruct (ok2_4 b0 b1) eqn:C1; [|destruct H as [H|H]; [congruence|auto]].
      destruct b as [|b2 b]; [destruct H as [H|[]]; congruence|]. cbn [length] in Hn. destruct (is_cont b2) eqn:C2.
      - destruct b as [|b3 b]; [destruct H as [H|[]]; congruence|]. cbn [length] in Hn. destruct (is_cont b3) eqn:C3.
        + destruct H as [H|H]; [|right; right; right; right; apply IH; [lia|assumption|assumption]].
          unfold ok2_4 in C1. apply andb_true_iff in C1 as [C1 _]. apply andb_true_iff in C1 as [C1 C4]. destruct (N.eqb_spec b0 240); [apply N.leb_le in C4; lia|lia].
        + destruct H as [H|H]; [congruence|]. right. right. right. apply IH; [cbn [length]; lia|assumption|assumption].
      - destruct H as [H|H]; [congruence|]. right. right. apply IH; [cbn [length]; lia|assumption|assumption]. }
    destruct H as [H|H]; [congruence|auto].
Qed.
Lemma split_first : forall (c : N) l, In c l -> exists a b, l = a ++ c :: b /\ ~ In c a.
Proof.
  intros c l. induction l as [|x l IH]; intro H; [destruct H|]. destruct (N.eq_dec x c) as [->|Hx].
  - exists [], l. split; [reflexivity|intros []].
  - destruct H as [H|H]; [congruence|]. destruct (IH H) as (a & b & -> & Hn). exists (x :: a), b. split; [reflexivity|]. intros [G|G]; [congruence|auto].
Qed.
Lemma first_unique : forall (c : N) a b a' b', a ++ c :: b = a' ++ c :: b' -> ~ In c a -> ~ In c a' -> a = a' /\ b = b'.
Proof.
  intros c a. induction a as [|x a IH]; intros b [|y a'] b' H Ha Ha'; cbn [app] in H.
  - injection H as ->. auto.
  - injection H as -> _. exfalso. apply Ha'. left. reflexivity.
  - injection H as -> _. exfalso. apply Ha. left. reflexivity.
  - injection H as -> H. destruct (IH b a' b' H) as [-> ->]; [intro G; apply Ha; right; assumption|intro G; apply Ha'; right; assumption|auto].
Qed.
(** An ASCII character of the text is a byte of the file. *)
Lemma decode_break : forall c b l r, (c < 128)%N -> utf8_decode b = l ++ c :: r -> ~ In c l ->
  exists bl bb, b = bl ++ c :: bb /\ utf8_decode bl = l /\ utf8_decode bb = r /\ ~ In c bl.
Proof.
  intros c b l r Hc H Hl. assert (Hi : In c b). { apply (decode_in (length b)); [lia|assumption|]. rewrite H. apply in_or_app. right. left. reflexivity. }
  destruct (split_first c b Hi) as (bl & bb & -> & Hn). rewrite (decode_cut (length bl)) in H by (lia || assumption).
  apply first_unique in H as [E1 E2]; [|intro G; apply Hn; apply (decode_in (length bl)); [lia|assumption|assumption]|assumption].
  exists bl, bb. auto.
Qed.
Lemma decode_has : forall c b, (c < 128)%N -> In c b -> In c (utf8_decode b).
Proof.
  intros c b Hc H. destruct (split_first c b H) as (x & y & -> & _). rewrite (decode_cut (length x)) by (lia || assumption).
  apply in_or_app. right. left. reflexivity.
Qed.

(** The first lines as bytes. *)
Lemma splitlines_crlf_b : forall l rest, no_lb is_lb_bytes l = true ->
  splitlines is_lb_bytes true (l ++ CR :: LF :: rest) = (l ++ [CR; LF]) :: splitlines is_lb_bytes true rest.
Proof.
  intros l rest. induction l as [|c l IH]; intro H; [reflexivity|].
  cbn [no_lb forallb] in H. apply andb_true_iff in H as [Hc H]. apply negb_true_iff in Hc.
  cbn [app splitlines]. rewrite Hc. rewrite IH by assumption. reflexivity.
Qed.
Lemma bytes_no_lb : forall bl, no_lb is_lb_str (utf8_decode bl) = true -> no_lb is_lb_bytes bl = true.
Proof.
  intros bl H. apply no_lb_str_bytes in H. unfold no_lb in *. apply forallb_forall. intros c Hc. rewrite forallb_forall in H.
  destruct (is_lb_bytes c) eqn:E; [|reflexivity]. assert (Hs : (c < 128)%N).
  { unfold is_lb_bytes in E. apply orb_true_iff in E as [E|E]; apply N.eqb_eq in E; subst; unfold LF, CR; lia. }
  assert (G := H c (decode_has c bl Hs Hc)). rewrite E in G. discriminate.
Qed.
Lemma cut_lines : forall ps block t, lines_ok ps -> utf8_decode block = text_of ps ++ t -> exists hb rest, block = hb ++ rest /\ utf8_decode hb = text_of ps /\ utf8_decode rest = t /\
  forall r, join (firstn (length ps) (splitlines_bytes true (hb ++ r))) = hb /\ join (skipn (length ps) (splitlines_bytes true (hb ++ r))) = r.
Proof.
  intros ps block t H. revert block. induction H as [|[l e] ps [Hl He] _ IH]; intros block Hd.
  - exists [], block. cbn [app text_of map concat] in *. split; [reflexivity|]. split; [reflexivity|]. split; [exact Hd|]. intro r. split; [reflexivity|]. apply splitlines_join.
  - cbn [fst snd] in *. assert (Ht : text_of ((l, e) :: ps) = l ++ e ++ text_of ps) by (unfold text_of; cbn [map concat fst snd]; apply app_assoc_reverse).
    rewrite Ht, <- !app_assoc in Hd.
    assert (Hn : forall c, is_lb_str c = true -> ~ In c l).
    { intros c Hc Hi. unfold no_lb in Hl. rewrite forallb_forall in Hl. apply Hl in Hi. rewrite Hc in Hi. discriminate. }
    destruct He as [-> | ->]; cbn [app] in Hd.
    + apply decode_break in Hd as (bl & bb & -> & Hbl & Hbb & _); [|unfold LF; lia|apply Hn; reflexivity].
      destruct (IH bb Hbb) as (hb & rest & -> & Ed & Er & G). exists (bl ++ LF :: hb), rest. split; [rewrite <- app_assoc; reflexivity|].
      split; [rewrite (decode_cut (length bl)) by (lia || (unfold LF; lia)); rewrite Hbl, Ed, Ht; reflexivity|]. split; [assumption|].
      intro r. destruct (G r) as [G1 G2]. rewrite <- app_assoc. cbn [app].
      assert (Es : splitlines_bytes true (bl ++ LF :: hb ++ r) = (bl ++ [LF]) :: splitlines_bytes true (hb ++ r)).
      { apply (splitlines_line is_lb_bytes true); [reflexivity|apply bytes_no_lb; rewrite Hbl; assumption]. }
      rewrite Es. cbn [length firstn skipn]. split; [|exact G2]. unfold join in *. cbn [concat]. rewrite G1, <- app_assoc. reflexivity.
    + apply decode_break in Hd as (bl & bb & -> & Hbl & Hbb & _); [|unfold CR; lia|apply Hn; reflexivity].
      apply (decode_break LF bb []) in Hbb as (bn & b2 & -> & Hbn & Hb2 & _); [|unfold LF; lia|intros []].
      assert (bn = []) by (destruct bn as [|x bn]; [reflexivity|]; rewrite decode_eq in Hbn; repeat (match type of Hbn with context [match ?y with _ => _ end] => destruct y end; try discriminate)). subst bn.
      destruct (IH b2 Hb2) as (hb & rest & -> & Ed & Er & G). exists (bl ++ CR :: LF :: hb), rest. split; [rewrite <- app_assoc; reflexivity|].
      split; [rewrite (decode_cut (length bl)) by (lia || (unfold CR; lia)); rewrite Hbl, decode_ascii by (unfold LF; lia); rewrite Ed, Ht; reflexivity|]. split; [assumption|].
      intro r. destruct (G r) as [G1 G2]. rewrite <- app_assoc. cbn [app].
      assert (Es : splitlines_bytes true (bl ++ CR :: LF :: hb ++ r) = (bl ++ [CR; LF]) :: splitlines_bytes true (hb ++ r)).
      { apply splitlines_crlf_b. apply bytes_no_lb. rewrite Hbl. assumption. }
      rewrite Es. cbn [length firstn skipn]. split; [|exact G2]. unfold join in *. cbn [concat]. rewrite G1, <- app_assoc. reflexivity.
Qed.

(* ------------------------------------------------------------------ *)
(** ** Records in which a blank precedes a text *)

Fixpoint merge (fs : list field) : list field :=
  match fs with
  | DX a :: DA w s :: fs' => DA (a + w) s :: merge fs'
  | f :: fs' => f :: merge fs'
  | [] => []
  end.
Definition notx (f : field) : Prop := match f with DX _ => False | _ => True end.
Lemma merge_line : forall room l fs, line_of false sep_none room l fs -> line_of false sep_none anyroom l (merge fs).
Proof.
  intros room l fs (cols & k & -> & Hc & _).
  assert (G : forall n fs first cols, length fs <= n -> columns false sep_none first cols fs -> exists cols', concat cols' = concat cols /\ forall first', columns false sep_none first' cols' (merge fs)).
  { clear. induction n as [|n IH]; intros fs first cols Hn Hc.
    - destruct fs; [|cbn in Hn; lia]. destruct cols; [|destruct Hc]. exists []. split; [reflexivity|]. intros. exact Logic.I.
    - destruct fs as [|f fs]; [destruct cols; [|destruct Hc]; exists []; split; [reflexivity|]; intros; exact Logic.I|].
      destruct cols as [|c cols]; [destruct Hc|]. destruct Hc as (H1 & _ & H3). cbn [length] in Hn.
      assert (D : exists cols', concat cols' = concat cols /\ forall first', columns false sep_none first' cols' (merge fs)) by (apply (IH fs false); [lia|assumption]).
      assert (S : exists cols', concat cols' = concat (c :: cols) /\ forall first', columns false sep_none first' cols' (f :: merge fs)).
      { destruct D as (cols' & E & D). exists (c :: cols'). split; [cbn [concat]; rewrite E; reflexivity|]. intro first'. split; [assumption|]. split; [discriminate|apply D]. }
      destruct f; try exact S. destruct fs as [|f2 fs]; [exact S|]. destruct f2; try exact S. clear D S.
      destruct cols as [|c2 cols]; [destruct H3|]. destruct H3 as (H2 & _ & H4). cbn [length] in Hn.
      destruct (IH fs false cols ltac:(lia) H4) as (cols' & E & D). exists ((c ++ c2) :: cols'). split; [cbn [concat]; rewrite E, app_assoc; reflexivity|].
      intro first'. cbn [merge columns]. split; [|split; [discriminate|apply D]]. cbn [holds] in *. destruct H2 as (L2 & a & b & E2). subst c.
      split; [rewrite app_length, repeat_length, L2; reflexivity|]. exists (w + a), b. rewrite E2, repeat_app, !app_assoc. reflexivity. }
  destruct (G (length fs) fs true cols (le_n _) Hc) as (cols' & E & D). exists cols', k. split; [rewrite E; reflexivity|]. split; [apply D|exact Logic.I].
Qed.
Ltac rd_merge := erewrite header_whole; [|eapply merge_line; eassumption|eassumption|reflexivity|reflexivity|reflexivity|cbn; lia|reflexivity|reflexivity|reflexivity]; cbn [rbind].

(** The header of 13 lines. *)
Lemma head_rd58 : forall room r (p0 p1 : str * str) ps d, length (q_ids r) = 5 -> lines_ok ps -> Forall2 (line_of false sep_none room) (map fst ps) (doc58_head r) ->
  header_recs (map whole (p0 :: p1 :: ps)) d recs58 = Ok (dupdate d (head_out r)).
Proof.
  intros room r p0 p1 ps d Hi Hl H. unfold doc58_head in H. destruct (q_ids r) as [|s1 [|s2 [|s3 [|s4 [|s5 [|]]]]]] eqn:Ei; try discriminate.
  cbn [map app] in H. next p2 H Hl. next p3 H Hl. next p4 H Hl. next p5 H Hl. next p6 H Hl. next p7 H Hl. next p8 H Hl. next p9 H Hl. next p10 H Hl. next p11 H Hl. next p12 H Hl.
  unfold recs58, axis_rec, DsHeaders.H. cbn [map]. cbn [header_recs h_line h_min h_widths h_types h_names ln nth_error of_option rbind].
  rd_hdr. rd_hdr. rd_hdr. rd_hdr. rd_hdr. 
rd_merge. rd_hdr. rd_merge. rd_merge. rd_merge. rd_merge.
  unfold head_out, odt58, even_val. rewrite Ei. destruct (q_cplx r), (q_dbl r), (q_even r); reflexivity.
Qed.

(* ------------------------------------------------------------------ *)
(** ** Data lines *)

Definition point_fields (cplx even dbl : bool) (p : pt) : list field :=
  let y f := if dbl then DR 20 11 f else DR 13 5 f in
  (if even then [] else [DR 13 5 (fst p)]) ++ [y (fst (snd p))] ++ (if cplx then [y (snd (snd p))] else []).
Lemma doc58_points : forall cplx even dbl ps, doc58_data cplx even dbl ps = map (flat_map (point_fields cplx even dbl)) (rows_of (per_line cplx even dbl) ps).
Proof. intros [] [] [] ps; reflexivity. Qed.
(** Blanks behind a line of reals: single precision fewer than a column, in an
    incomplete line any number of whole columns besides; double precision fewer
    than a column; any number behind lines of one complex value and abscissa. *)
Definition room58 (fs : list field) (k : nat) : Prop :=
  match fs with
  | DR 20 _ _ :: _ => k <= 17
  | DR 13 _ _ :: DR 20 _ _ :: _ => length fs = 3 \/ k <= 30
  | DR 13 _ _ :: _ => if length fs =? 6 then k <= 10 else k mod 13 <= 10
  | _ => True
  end.

Lemma chop_more : forall w cols s m, Forall (fun c => length c = w) cols -> chop w (length cols + m) (concat cols ++ s) = cols ++ chop w m s.
Proof.
  intros w cols s m H. induction H as [|c cols Hc _ IH]; [reflexivity|]. cbn [length Nat.add chop concat app]. rewrite <- app_assoc.
  rewrite firstn_app_exact, skipn_app_exact by assumption. rewrite IH. reflexivity.
Qed.
Lemma chop_blanks : forall w m s, chop w m (repeat blank (m * w) ++ s) = repeat (repeat blank w) m.
Proof.
  intros w m s. induction m as [|m IH]; [reflexivity|]. cbn [Nat.mul chop repeat]. rewrite repeat_app, <- app_assoc.
  rewrite firstn_app_exact, skipn_app_exact by apply repeat_length. rewrite IH. reflexivity.
Qed.
Lemma nonws_some : forall a b s, nonws s -> exists x, In x (repeat blank a ++ s ++ repeat blank b) /\ x <> blank.
Proof.
  intros a b s [Hn Hs]. destruct s as [|x s]; [congruence|]. exists x. split; [apply in_or_app; right; left; reflexivity|].
  intros ->. cbn [forallb] in Hs. discriminate.
Qed.
Lemma line_cols : forall need room w p fs, line_of false need room (fst p) fs -> line_end (snd p) -> forallb num fs = true -> Forall (fun f => fwidth f = w) fs -> 0 < w ->
  exists cols k, Forall (fun c => length c = w) cols /\ length cols = length fs /\ parse_floats cols = Ok (map fval fs) /\ room fs k /\
    Forall (fun c => exists x, In x c /\ x <> blank) cols /\
    (k mod w + length (snd p) < w -> chop w (length (whole p) / w) (whole p) = cols ++ repeat (repeat blank w) (k / w)).
Proof.
  intros need room w p fs (cols & k & E & Hc & Hr) He Hn Hw Hp. destruct (cols_width _ _ _ w _ _ Hc) as [G1 G2].
  { rewrite Forall_forall in *. intros f Hf. split; [rewrite forallb_forall in Hn; apply Hn; assumption|apply Hw; assumption]. }
  exists cols, k. split; [assumption|]. split; [assumption|]. split; [eapply cols_floats; eassumption|]. split; [assumption|]. split.
  - clear -Hc Hn. revert Hc. generalize true as first. revert fs Hn. induction cols as [|c cols IH]; intros [|f fs] Hn first Hc; cbn [columns] in Hc; try contradiction; constructor.
    + destruct Hc as (Hh & _ & _). cbn [forallb] in Hn. apply andb_true_iff in Hn as [Hn _]. destruct f; try discriminate.
      * destruct Hh as (_ & a & b & ->). apply nonws_some. apply dec_Z_nonws.
      * destruct Hh as (_ & a & b & s & -> & Hs). apply nonws_some. eapply real_text_nonws. exact Hs.
    + cbn [forallb] in Hn. apply andb_true_iff in Hn as [_ Hn]. apply (IH fs Hn false). apply Hc.
  - intro Hk. assert (E2 : whole p = concat cols ++ (repeat blank k ++ snd p)) by (unfold whole; rewrite E, app_assoc; reflexivity).
    rewrite E2, app_length, (concat_length_const _ w) by assumption. rewrite app_length, repeat_length.
    assert (Dk := Nat.div_mod k w ltac:(lia)).
    replace ((length cols * w + (k + length (snd p))) / w) with (length cols + k / w).
    2: { apply Nat.div_unique with (r := k mod w + length (snd p)); [assumption|]. nia. }
    rewrite chop_more by assumption. f_equal. rewrite Dk at 2. rewrite repeat_app, (Nat.mul_comm w), <- app_assoc. apply chop_blanks.
Qed.
Lemma blank_cells : forall cols n, Forall (fun c => exists x, In x c /\ x <> blank) cols ->
  filter (fun c => negb (all_blank13 c)) (cols ++ repeat (repeat blank 13) n) = cols.
Proof.
  intros cols n H. induction H as [|c cols (x & Hx & Hb) _ IH].
  - induction n as [|n IH]; [reflexivity|exact IH].
  - cbn [app filter]. replace (all_blank13 c) with false; [cbn [negb]; f_equal; exact IH|]. symmetry. unfold all_blank13.
    destruct (leqb c (repeat blank 13)) eqn:E; [|reflexivity]. apply leqb_eq in E. subst c. apply repeat_spec in Hx. congruence.
Qed.
Lemma rows_full : forall A k (l q : list A) (rs : list (list A)), 0 < k -> rows_of k l = rs ++ [q] -> Forall (fun r => length r = k) rs.
Proof.
  intros A k l q rs Hk H. rewrite <- chunks_rows in H by assumption. rewrite Forall_forall. intros r Hr.
  apply In_nth_error in Hr as (i & Hi). assert (Li : i < length rs) by (apply nth_error_Some; congruence).
  assert (Ei : nth_error (chunks k l) i = Some r) by (rewrite H, nth_error_app1 by assumption; assumption).
  assert (Ln : length (chunks k l) = S (length rs)) by (rewrite H, app_length; cbn; lia). rewrite chunks_length in Ln.
  unfold chunks in Ei. rewrite Ln in Ei. assert (Ei2 := map_nth_error (chunk k l) i (seq 0 (S (length rs))) (d := i)). rewrite Ei2 in Ei.
  2: { rewrite (nth_error_nth' _ 0) by (rewrite seq_length; lia). rewrite seq_nth by lia. reflexivity. }
  injection Ei as <-. unfold chunk. rewrite firstn_length, skipn_length.
  assert (S (length rs) * k <= length l + (k - 1)) by (unfold rows_up in Ln; rewrite <- Ln; rewrite Nat.mul_comm; apply Nat.mul_div_le; lia). nia.
Qed.

Definition pts_read (cplx even dbl : bool) (p : pt) : list float := map fval (point_fields cplx even dbl p).
Lemma pts_read_clean : forall cplx even dbl p, pts_read cplx even dbl (clean p) = p_read cplx even dbl p.
Proof. intros [] [] [] p; reflexivity. Qed.
Lemma flat_fval : forall cplx even dbl row, map fval (flat_map (point_fields cplx even dbl) row) = flat_map (pts_read cplx even dbl) row.
Proof. intros cplx even dbl row. rewrite !flat_map_concat_map, concat_map, map_map. reflexivity. Qed.
Lemma flat_num : forall cplx even dbl row, forallb num (flat_map (point_fields cplx even dbl) row) = true.
Proof. intros cplx even dbl row. apply forallb_forall. intros f Hf. apply in_flat_map in Hf as (p & _ & Hf). destruct cplx, even, dbl; cbn in Hf; intuition (subst; reflexivity). Qed.
Lemma flat_width : forall cplx even dbl w q row, uniform cplx even dbl = Some (w, q) -> Forall (fun f => fwidth f = w) (flat_map (point_fields cplx even dbl) row).
Proof.
  intros cplx even dbl w q row H. rewrite Forall_forall. intros f Hf. apply in_flat_map in Hf as (p & _ & Hf).
  destruct cplx, even, dbl; try discriminate; injection H as <- <-; cbn in Hf; intuition (subst; reflexivity).
Qed.
Lemma eol_short : forall e, line_end e -> length e <= 2.
Proof. intros e [-> | ->]; cbn; lia. Qed.
Lemma room_single : forall cplx even row k, row <> [] -> room58 (flat_map (point_fields cplx even false) row) k ->
  if length (flat_map (point_fields cplx even false) row) =? 6 then k <= 10 else k mod 13 <= 10.
Proof. intros [] [] [|q [|q2 row]] k Hr H; try congruence; exact H. Qed.
(** Single precision: complete lines, and the last line. *)
Lemma single_rd : forall cplx even row p, length row = per_line cplx even false -> line_of false sep_none room58 (fst p) (flat_map (point_fields cplx even false) row) -> line_end (snd p) ->
  parse_floats (chop 13 (length (whole p) / 13) (whole p)) = Ok (flat_map (pts_read cplx even false) row).
Proof.
  intros cplx even row p Hr H He.
  destruct (line_cols _ _ 13 _ _ H He (flat_num _ _ _ _)) as (cols & k & _ & Hlen & Hp & Hroom & _ & Hc); [eapply flat_width; reflexivity|lia|].
  assert (Hk : k <= 10).
  { assert (L6 : length (flat_map (point_fields cplx even false) row) = 6).
    { rewrite (flat_length _ _ _ (length (point_fields cplx even false (f_zero, (f_zero, f_zero))))) by (intro; destruct cplx, even; reflexivity). rewrite Hr. destruct cplx, even; reflexivity. }
    apply room_single in Hroom; [|intro E; rewrite E in Hr; destruct cplx, even; discriminate]. rewrite L6 in Hroom. exact Hroom. }
  assert (Hs := eol_short _ He). rewrite Hc by (rewrite Nat.mod_small by lia; lia). rewrite Nat.div_small by lia. cbn [repeat]. rewrite app_nil_r, Hp, flat_fval. reflexivity.
Qed.
Lemma last_rd : forall cplx even row p, row <> [] -> line_of false sep_none room58 (fst p) (flat_map (point_fields cplx even false) row) -> line_end (snd p) ->
  parse_floats (filter (fun c => negb (all_blank13 c)) (chop 13 (length (whole p) / 13) (whole p))) = Ok (flat_map (pts_read cplx even false) row).
Proof.
  intros cplx even row p Hr H He.
  destruct (line_cols _ _ 13 _ _ H He (flat_num _ _ _ _)) as (cols & k & _ & Hlen & Hp & Hroom & Hnb & Hc); [eapply flat_width; reflexivity|lia|].
  assert (Hk : k mod 13 <= 10).
  { apply room_single in Hroom; [|assumption]. destruct (_ =? 6); [rewrite Nat.mod_small by lia|]; assumption. }
  assert (Hs := eol_short _ He). rewrite Hc by lia. rewrite blank_cells by assumption. rewrite Hp, flat_fval. reflexivity.
Qed.
(** Double precision, even abscissa. *)
Lemma double_rd : forall cplx row p, row <> [] -> line_of false sep_none room58 (fst p) (flat_map (point_fields cplx true true) row) -> line_end (snd p) ->
  parse_floats (chop 20 (length (whole p) / 20) (whole p)) = Ok (flat_map (pts_read cplx true true) row).
Proof.
  intros cplx row p Hr H He.
  destruct (line_cols _ _ 20 _ _ H He (flat_num _ _ _ _)) as (cols & k & _ & Hlen & Hp & Hroom & _ & Hc); [eapply flat_width; reflexivity|lia|].
  assert (Hk : k <= 17) by (destruct row as [|q row]; [congruence|]; destruct cplx; exact Hroom).
  assert (Hs := eol_short _ He). rewrite Hc by (rewrite Nat.mod_small by lia; lia). rewrite Nat.div_small by lia. cbn [repeat]. rewrite app_nil_r, Hp, flat_fval. reflexivity.
Qed.
(** Double precision, uneven abscissa, real values. *)
Lemma cells33_rd : forall row p, row <> [] -> length row <= 2 -> line_of false sep_none room58 (fst p) (flat_map (point_fields false false true) row) -> line_end (snd p) ->
  parse_floats (cells33 (length (whole p) / 33) (whole p)) = Ok (flat_map (pts_read false false true) row).
Proof.
  intros row p Hr Hl2 (cols & k & E & Hc & Hroom) He.
  assert (Hk : k <= 30).
  { destruct row as [|q row]; [congruence|]. cbn [flat_map point_fields app room58] in Hroom. destruct Hroom as [Hroom|Hroom]; [|exact Hroom].
    destruct row as [|q2 [|? ?]]; cbn in Hroom, Hl2; lia. }
  assert (Hs := eol_short _ He). assert (Hf := cols_floats _ _ _ _ Hc (flat_num _ _ _ _)). rewrite flat_fval in Hf.
  assert (G : length (concat cols) = length row * 33 /\ forall t, cells33 (length row) (concat cols ++ t) = cols).
  { clear -Hc. assert (Hc' : exists first, columns false sep_none first cols (flat_map (point_fields false false true) row)) by eauto. destruct Hc' as (first & Hc'). clear Hc. rename Hc' into Hc.
    revert first cols Hc. induction row as [|q row IH]; intros first cols Hc.
    - destruct cols; [split; reflexivity|destruct Hc].
    - cbn [flat_map point_fields app] in Hc. destruct cols as [|a [|b cols]]; cbn [columns] in Hc; try tauto.
      destruct Hc as ((La & _) & _ & (Lb & _) & _ & Hc). destruct (IH _ _ Hc) as [I1 I2]. split.
      + cbn [concat length]. rewrite !app_length, La, Lb, I1. lia.
      + intro t. cbn [length cells33 concat]. rewrite <- !app_assoc. rewrite firstn_app_exact by assumption. unfold slice. rewrite skipn_app_exact by assumption.
        rewrite firstn_app_exact by assumption. rewrite (app_assoc a b), skipn_app_exact by (rewrite app_length; unfold str in *; lia). rewrite I2. reflexivity. }
  destruct G as [G1 G2]. assert (E2 : whole p = concat cols ++ (repeat blank k ++ snd p)) by (unfold whole; rewrite E, app_assoc; reflexivity).
  rewrite E2, app_length, G1, app_length, repeat_length.
  replace ((length row * 33 + (k + length (snd p))) / 33) with (length row) by (apply Nat.div_unique with (r := k + length (snd p)); lia).
  rewrite G2. exact Hf.
Qed.
(** Double precision, uneven abscissa, complex values. *)
Lemma slices_rd : forall row p, length row = 1 -> line_of false sep_none room58 (fst p) (flat_map (point_fields true false true) row) -> line_end (snd p) ->
  parse_floats [slice 0 13 (whole p); slice 13 33 (whole p); slice 33 53 (whole p)] = Ok (flat_map (pts_read true false true) row).
Proof.
  intros row p Hr (cols & k & E & Hc & _) He. destruct row as [|q [|? ?]]; try discriminate.
  assert (Hf := cols_floats _ _ _ _ Hc (flat_num _ _ _ _)). rewrite flat_fval in Hf.
  cbn [flat_map point_fields app] in Hc. destruct cols as [|a [|b [|c [|? ?]]]]; cbn [columns] in Hc; try tauto.
  destruct Hc as ((La & _) & _ & (Lb & _) & _ & (Lc & _) & _).
  assert (E2 : whole p = a ++ b ++ c ++ (repeat blank k ++ snd p)) by (unfold whole; rewrite E; cbn [concat]; rewrite app_nil_r, <- !app_assoc; reflexivity).
  rewrite E2. unfold slice. rewrite skipn_O. change (13 - 0) with 13. change (33 - 13) with 20. change (53 - 33) with 20.
  rewrite firstn_app_exact by assumption. rewrite skipn_app_exact by assumption. rewrite firstn_app_exact by assumption.
  rewrite (app_assoc a b), skipn_app_exact by (rewrite app_length; unfold str in *; lia). rewrite firstn_app_exact by assumption. exact Hf.
Qed.

Lemma rmap_rd : forall (f : str -> result (list float)) (F : pt -> list field) (h : pt -> list float) rows ps, lines_ok ps ->
  Forall2 (line_of false sep_none room58) (map fst ps) (map (flat_map F) rows) ->
  (forall row p, In row rows -> line_of false sep_none room58 (fst p) (flat_map F row) -> line_end (snd p) -> f (whole p) = Ok (flat_map h row)) ->
  rmap f (map whole ps) = Ok (map (flat_map h) rows).
Proof.
  intros f F h rows. unfold rmap. induction rows as [|r rows IH]; intros [|p ps] Hl H Hf; try (inversion H; fail); [reflexivity|].
  cbn [map] in H. inversion H as [|? ? ? ? H1 H2]; subst. inversion Hl as [|? ? L1 L2]; subst. cbn [map rseq].
  rewrite (Hf r p) by (try (left; reflexivity); try assumption; apply L1). cbn [rbind]. rewrite IH; [reflexivity|assumption|assumption|].
  intros row q Hi. apply Hf. right. assumption.
Qed.
Lemma Forall2_last : forall A B (P : A -> B -> Prop) l b bs, Forall2 P l (bs ++ [b]) -> exists l' a, l = l' ++ [a] /\ Forall2 P l' bs /\ P a b.
Proof.
  intros A B P l b bs H. apply Forall2_app_inv_r in H as (l1 & l2 & H1 & H2 & ->). inversion H2 as [|a ? l3 ? Ha H3]; subst. inversion H3; subst. exists l1, a. auto.
Qed.
Lemma ascii_rd : forall cplx even dbl d pts ps,
  ix d "ord_data_type" = Ok (VInt (odt_of cplx dbl)) -> ix d "abscissa_spacing" = Ok (even_val even) -> pts <> [] -> lines_ok ps ->
  Forall2 (line_of false sep_none room58) (map fst ps) (doc58_data cplx even dbl pts) ->
  ascii_values d (map whole ps) = Ok (flat_map (pts_read cplx even dbl) pts).
Proof.
  intros cplx even dbl d pts ps Ho He Hn Hl H. unfold ascii_values. rewrite Ho, He. cbn [rbind]. rewrite doc58_points in H.
  assert (Hc := chunks_ok _ (fun _ => True) (per_line cplx even dbl) pts (per_line_pos _ _ _)). rewrite chunks_rows in Hc by apply per_line_pos.
  assert (Hc' : Forall (fun ch => ch <> [] /\ length ch <= per_line cplx even dbl /\ Forall (fun _ : pt => True) ch) (rows_of (per_line cplx even dbl) pts)) by (apply Hc; rewrite Forall_forall; auto).
  clear Hc. rewrite Forall_forall in Hc'.
  assert (Ec := rows_concat _ (per_line cplx even dbl) pts (per_line_pos _ _ _)).
  assert (Hful := rows_full pt (per_line cplx even dbl) pts).
  remember (rows_of (per_line cplx even dbl) pts) as rows eqn:Erows. clear Erows.
  destruct dbl.
  - replace (eq_one_of (VInt (odt_of cplx true)) [2; 5]%Z) with false by (destruct cplx; reflexivity).
    replace (eq_one_of (VInt (odt_of cplx true)) [4; 6]%Z) with true by (destruct cplx; reflexivity). cbn [andb].
    destruct even.
    + replace (py_eqZ (even_val true) 1) with true by reflexivity.
      rewrite (rmap_rd _ _ (pts_read cplx true true) _ _ Hl H).
      * cbn [rbind]. rewrite concat_flat, Ec. reflexivity.
      * intros row p Hi. apply double_rd. apply Hc'. assumption.
    + replace (py_eqZ (even_val false) 1) with false by reflexivity. replace (py_eqZ (even_val false) 0) with true by reflexivity. destruct cplx.
      * cbn [odt_of]. change (py_eqZ (VInt 6) 4) with false. change (py_eqZ (VInt 6) 6) with true. cbn [andb].
        rewrite (rmap_rd _ _ (pts_read true false true) _ _ Hl H).
        -- cbn [rbind]. rewrite concat_flat, Ec. reflexivity.
        -- intros row p Hi. apply slices_rd. apply Hc' in Hi as (H1 & H2 & _). cbn [per_line] in H2. destruct row as [|? [|? ?]]; [congruence|reflexivity|cbn in H2; lia].
      * cbn [odt_of]. change (py_eqZ (VInt 4) 4) with true. cbn [andb].
        rewrite (rmap_rd _ _ (pts_read false false true) _ _ Hl H).
        -- cbn [rbind]. rewrite concat_flat, Ec. reflexivity.
        -- intros row p Hi. apply Hc' in Hi as (H1 & H2 & _). apply cells33_rd; assumption.
  - replace (eq_one_of (VInt (odt_of cplx false)) [2; 5]%Z) with true by (destruct cplx; reflexivity).
    assert (Hne : rows <> []) by (intro E; rewrite E in Ec; cbn in Ec; congruence).
    destruct (exists_last Hne) as (q & l & E). subst rows. rewrite map_app in H. cbn [map] in H.
    assert (Hf := Hful l q (per_line_pos _ _ _) eq_refl). rewrite Forall_forall in Hf.
    assert (Hp2 : exists ps' p, ps = ps' ++ [p] /\ Forall2 (line_of false sep_none room58) (map fst ps') (map (flat_map (point_fields cplx even false)) q) /\ line_of false sep_none room58 (fst p) (flat_map (point_fields cplx even false) l)).
    { apply Forall2_last in H as (ls & x & E & H1 & H2). destruct (map_eq_app fst ps ls [x] E) as (p1 & p2 & -> & <- & E2).
      destruct p2 as [|y [|? ?]]; try discriminate. injection E2 as <-. exists p1, y. auto. }
    destruct Hp2 as (ps' & p & -> & H1 & H2). apply Forall_app in Hl as [Hl1 Hl2]. assert (Hl3 := Forall_inv Hl2).
    rewrite map_app. cbn [map]. rewrite (firstn_last str). rewrite (py_nth_last str).
    rewrite (rmap_rd _ _ (pts_read cplx even false) _ _ Hl1 H1).
    2: { intros row x Hi. apply single_rd. apply Hf. assumption. }
    cbn [rbind]. rewrite (last_rd cplx even l p); [|apply Hc'; apply in_or_app; right; left; reflexivity|assumption|apply Hl3].
    cbn [rbind]. rewrite concat_flat. rewrite <- Ec, concat_app, flat_map_app. cbn [concat]. rewrite app_nil_r. reflexivity.
Qed.

Lemma assemble_rd : forall cplx even dbl d mn inc ps,
  ix d "ord_data_type" = Ok (VInt (odt_of cplx dbl)) -> ix d "abscissa_spacing" = Ok (even_val even) ->
  ix d "abscissa_min" = Ok (VFloat mn) -> ix d "abscissa_inc" = Ok (VFloat inc) ->
  (cplx = true -> Forall (fun p : pt => f_finite (fst (snd p)) = true /\ okfin (snd (snd p))) ps) ->
  assemble58 d (flat_map (raw cplx even) ps) = Ok (dupdate d [(KS "x", x_out even mn inc ps); (KS "data", y_out cplx ps)]).
Proof.
  intros cplx even dbl d mn inc ps Ho He Hm Hi Hf. destruct cplx; [apply (assemble_ok true even dbl); auto|].
  unfold assemble58, get_float. rewrite Ho, He, Hm, Hi. cbn [rbind].
  replace (eq_one_of (VInt (odt_of false dbl)) [2; 4]%Z) with true by (destruct dbl; reflexivity).
  destruct even; cbn [even_val py_eqZ Z.eqb].
  + assert (E : flat_map (raw false true) ps = map (fun p => fst (snd p)) ps) by (clear; induction ps as [|p ps IH]; [reflexivity|]; cbn [map flat_map]; rewrite IH; reflexivity).
    rewrite E, map_length. reflexivity.
  + destruct (every_2 fst (fun p => fst (snd p)) ps) as [E1 E2]. change (raw false false) with (fun p : pt => [fst p; fst (snd p)]). rewrite E1, E2. reflexivity.
Qed.
(** A block of text whose second line has no letter B in column 7. *)
Definition unmarked (l : str) : Prop := match nth_error l 6 with Some c => (lower_char c =? 98)%N | None => false end = false.
Definition readable58 (r : func58) : Prop := length (q_ids r) = 5 /\ q_pts r <> [] /\ (q_cplx r = true -> Forall okpt (q_pts r)).
Lemma extract_rd58 : forall r hb rest ho p0 p1 ps bin, length (q_ids r) = 5 -> lines_ok (p0 :: p1 :: ps) -> utf8_decode hb = text_of (p0 :: p1 :: ps) ->
  (forall x, join (firstn 13 (splitlines_bytes true (hb ++ x))) = hb /\ join (skipn 13 (splitlines_bytes true (hb ++ x))) = x) ->
  Forall2 (line_of false sep_none room58) (map fst ps) (doc58_head r) ->
  match nth_error (whole p1) 6 with Some c => (lower_char c =? 98)%N | None => false end = bin ->
  extract58 (hb ++ rest) ho = try_any
    (do d1 <- header_recs (map whole (p0 :: p1 :: ps)) [(KS "type", VInt 58); (KS "binary", VInt (if bin then 1 else 0))] (if bin then [rec58b] else []) ;;
     let d := dupdate d1 (head_out r) in
     if ho then Ok (dupdate d [(KS "x", VNone); (KS "data", VNone)])
     else do values <- (if bin then binary_values d rest
                        else ascii_values d (skipn 13 (splitlines_str true (utf8_decode (hb ++ rest))))) ;;
          assemble58 d values) (PyException "Error reading data-set #58b").
Proof.
  intros r hb rest ho p0 p1 ps bin Hi Hl Hd Hb H Hbin. destruct (Hb rest) as [B1 B2]. unfold extract58. cbv zeta. rewrite B1, B2, Hd.
  rewrite block_keep by assumption. match goal with |- context [ln ?l 1] => change (ln l 1) with (@Ok str (whole p1)) end. cbn [rbind]. rewrite Hbin. f_equal.
  change (whole p0 :: whole p1 :: @map (str * str) str whole ps) with (map whole (p0 :: p1 :: ps)).
  destruct (header_recs (map whole (p0 :: p1 :: ps)) _ _) as [d1|]; [|reflexivity]. cbn [rbind].
  rewrite (head_rd58 room58 r) by (try assumption; apply lines_tail, lines_tail in Hl; assumption). reflexivity.
Qed.
Lemma doc58_head_length : forall r, length (q_ids r) = 5 -> length (doc58_head r) = 11.
Proof. intros r H. unfold doc58_head. rewrite app_length, map_length, H. reflexivity. Qed.
Lemma rd58 : forall r block ps ho p0 p1, utf8_decode block = text_of (p0 :: p1 :: ps) -> lines_ok (p0 :: p1 :: ps) -> unmarked (whole p1) ->
  Forall2 (line_of false sep_none room58) (map fst ps) (doc58 r) -> readable58 r -> extract_set 58 block ho = Ok (read58 false ho r).
Proof.
  intros r block ps ho p0 p1 Hd Hl Hu H (Hi & Hn & Hp). unfold extract_set. cbn [Z.eqb Pos.eqb]. unfold doc58 in H.
  apply Forall2_app_inv_r in H as (l1 & l2 & H1 & H2 & E). destruct (map_eq_app fst ps l1 l2 E) as (ps1 & ps2 & -> & <- & <-). clear E.
  assert (Hl1 : lines_ok (p0 :: p1 :: ps1)) by (apply (proj1 (proj1 (Forall_app _ (p0 :: p1 :: ps1) ps2) Hl))).
  assert (Hl2 : lines_ok ps2) by (apply (proj2 (proj1 (Forall_app _ (p0 :: p1 :: ps1) ps2) Hl))).
  assert (Hd' := Hd). assert (Et : text_of (p0 :: p1 :: ps1 ++ ps2) = text_of (p0 :: p1 :: ps1) ++ text_of ps2) by (unfold text_of; rewrite <- concat_app, <- map_app; reflexivity).
  rewrite Et in Hd. destruct (cut_lines _ _ _ Hl1 Hd) as (hb & rest & -> & Eh & Er & G).
  assert (L13 : length (p0 :: p1 :: ps1) = 13).
  { apply Forall2_len in H1. rewrite map_length, doc58_head_length in H1 by assumption. cbn [length]. unfold str in *. lia. }
  rewrite L13 in G. rewrite (extract_rd58 r hb rest ho p0 p1 ps1 false) by assumption. cbn [header_recs rbind]. cbv zeta.
  assert (Eb : dupdate [(KS "type", VInt 58); (KS "binary", VInt 0)] (head_out r) = base58 false r).
  { unfold base58, head_out. destruct (q_ids r) as [|s1 [|s2 [|s3 [|s4 [|s5 [|]]]]]]; try discriminate. reflexivity. }
  rewrite Eb. unfold read58. destruct ho; [rewrite base_end by assumption; reflexivity|].
  rewrite Hd', block_keep by assumption.
  destruct (base_ix false r Hi) as (I1 & I2 & I3 & I4).
  assert (Esk : skipn 13 (whole p0 :: whole p1 :: @map (str * str) str whole (ps1 ++ ps2)) = @map (str * str) str whole ps2).
  { change (whole p0 :: whole p1 :: @map (str * str) str whole (ps1 ++ ps2)) with (@map (str * str) str whole ((p0 :: p1 :: ps1) ++ ps2)). rewrite map_app.
    apply skipn_app_exact. rewrite map_length. exact L13. }
  assert (Ea := ascii_rd (q_cplx r) (q_even r) (q_dbl r) (base58 false r) (map clean (q_pts r)) ps2 I1 I2 ltac:(destruct (q_pts r); [congruence|discriminate]) Hl2 H2).
  match goal with |- context [ascii_values ?dd ?t] => replace (ascii_values dd t) with (@Ok (list float) (flat_map (pts_read (q_cplx r) (q_even r) (q_dbl r)) (map clean (q_pts r)))) by (symmetry; etransitivity; [|exact Ea]; f_equal; exact Esk) end.
  cbn [rbind].
  assert (Ep : flat_map (pts_read (q_cplx r) (q_even r) (q_dbl r)) (map clean (q_pts r)) = flat_map (p_read (q_cplx r) (q_even r) (q_dbl r)) (q_pts r)).
  { rewrite !flat_map_concat_map, map_map. f_equal. apply map_ext. intro p. apply pts_read_clean. }
  rewrite Ep, p_read_raw. rewrite (assemble_rd (q_cplx r) (q_even r) (q_dbl r) _ _ _ _ I1 I2 I3 I4).
  - rewrite base_end by assumption. reflexivity.
  - intro Ec. rewrite Forall_map. eapply Forall_impl; [|exact (Hp Ec)]. intro p. apply rpt_ok.
Qed.
