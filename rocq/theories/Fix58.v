(** Facts about [fix_58b] (dataset_58.py:1504-1563). *)
From Coq Require Import String List NArith ZArith Bool Lia.
Import ListNotations.
From Verif Require Import PyBase PyNum PyVal Utf8 Tools Ds58 Uff Facts Scan Container ContainerThms.
From Coq Require Import Lia.
Open Scope list_scope.
Open Scope nat_scope.

(** ** The second loop *)

(** The loop turns [rest] into [out], given enough steps. *)
Definition fixes (rest out : list bytes) : Prop := forall fuel, length rest <= fuel -> fix2 fuel rest = Ok out.
Lemma fixes_short : forall rest, length rest < 4 -> fixes rest rest.
Proof.
  intros rest H fuel _. destruct rest as [|a [|b [|c [|e r]]]]; try (destruct fuel; reflexivity). cbn [length] in H. lia.
Qed.
Lemma fixes_fun : forall r a b, fixes r a -> fixes r b -> a = b.
Proof. intros r a b Ha Hb. specialize (Ha (length r) (le_n _)). specialize (Hb (length r) (le_n _)). congruence. Qed.
Lemma fixes_skip : forall a r out, (forall b c t, r = b :: c :: t -> is_m1 b && is_m1 c = false) -> fixes r out -> fixes (a :: r) (a :: out).
Proof.
  intros a r out Hn H. destruct r as [|b [|c [|e t]]].
  - rewrite (fixes_fun _ _ _ H (fixes_short [] ltac:(cbn; lia))). apply fixes_short. cbn. lia.
  - rewrite (fixes_fun _ _ _ H (fixes_short [b] ltac:(cbn; lia))). apply fixes_short. cbn. lia.
  - rewrite (fixes_fun _ _ _ H (fixes_short [b; c] ltac:(cbn; lia))). apply fixes_short. cbn. lia.
  - intros [|f] Hf; [cbn [length] in Hf; lia|]. cbn [fix2]. rewrite (Hn b c (e :: t) eq_refl), H by (cbn [length] in *; lia). reflexivity.
Qed.
Lemma fixes_glue : forall a b c e t out, is_m1 b = true -> is_m1 c = true -> fixes (glue a b :: c :: e :: t) out -> fixes (a :: b :: c :: e :: t) out.
Proof.
  intros a b c e t out Hb Hc H [|f] Hf; [cbn [length] in Hf; lia|]. cbn [fix2]. rewrite Hb, Hc, H by (cbn [length] in *; lia). reflexivity.
Qed.
Lemma fix2_total : forall n rest fuel, length rest <= n -> length rest <= fuel -> exists out, fix2 fuel rest = Ok out.
Proof.
  induction n as [|n IH]; intros rest fuel Hn Hf.
  - destruct rest; [|cbn in Hn; lia]. exists []. destruct fuel; reflexivity.
  - destruct rest as [|a [|b [|c [|e r]]]]; try (eexists; destruct fuel; reflexivity).
    destruct fuel as [|f]; [cbn [length] in Hf; lia|]. cbn [fix2]. destruct (is_m1 b && is_m1 c).
    + apply IH; cbn [length] in *; lia.
    + destruct (IH (b :: c :: e :: r) f) as [out ->]; [cbn [length] in *; lia..|]. exists (a :: out). reflexivity.
Qed.
Lemma fix1_length : forall l, length (fix1 l) <= length l.
Proof.
  intro l. unfold fix1. destruct (rev l) as [|x [|p r]] eqn:E; [lia..|]. destruct (is_m1 x); [|lia].
  rewrite rev_length, <- (rev_length l), E. cbn [length]. lia.
Qed.
(** It ends, whatever the file. *)
Lemma fix_58b_total : forall data, exists out, fix_58b data = Ok out.
Proof.
  intro data. unfold fix_58b, fix_58b_fuel.
  destruct (fix2_total (length (splitlines_bytes true data)) (fix1 (splitlines_bytes true data)) (length (splitlines_bytes true data))) as [out E];
    [apply fix1_length|apply fix1_length|]. rewrite E. eexists. reflexivity.
Qed.
Lemma fix_58b_fixes : forall data out, fixes (fix1 (splitlines_bytes true data)) out -> fix_58b data = Ok (join out).
Proof. intros data out H. unfold fix_58b, fix_58b_fuel. rewrite H by apply fix1_length. reflexivity. Qed.

(** ** Lines of a file *)

Lemma join_splitlines : forall data, join (splitlines_bytes true data) = data.
Proof.
  assert (G : forall n data, length data <= n -> join (splitlines_bytes true data) = data).
  { induction n as [|n IH]; intros data Hn; [destruct data; [reflexivity|cbn in Hn; lia]|]. unfold splitlines_bytes in *.
    destruct data as [|c r]; [reflexivity|]. cbn [splitlines]. cbn [length] in Hn. destruct (is_lb_bytes c).
    - destruct r as [|c' r']; [reflexivity|]. destruct ((c =? 13) && (c' =? 10))%N; unfold join in *; cbn [concat app].
      + rewrite IH by (cbn [length] in Hn; lia). reflexivity.
      + rewrite IH by (cbn [length] in *; lia). reflexivity.
    - assert (H := IH r ltac:(lia)). unfold join in *. destruct (splitlines is_lb_bytes true r) as [|l ls] eqn:E; cbn [concat app] in *; [subst; reflexivity|].
      rewrite H. reflexivity. }
  intro data. apply (G (length data)). lia.
Qed.

(** A line [w] with its line break [t]. *)
Definition eol (t : bytes) : Prop := t = [LF] \/ t = [CR; LF].
Definition inline (w : bytes) : Prop := Forall (fun c => is_lb_bytes c = false) w.
Definition is_line (l : bytes) : Prop := exists w t, l = w ++ t /\ inline w /\ eol t.
Lemma splitlines_line : forall l rest, is_line l -> splitlines_bytes true (l ++ rest) = l :: splitlines_bytes true rest.
Proof.
  intros l rest (w & t & -> & Hw & Ht). rewrite <- app_assoc. unfold splitlines_bytes. induction Hw as [|c w Hc Hw IH].
  - destruct Ht as [-> | ->]; cbn [app splitlines].
    + change (is_lb_bytes LF) with true. cbv iota. destruct rest; reflexivity.
    + reflexivity.
  - cbn [app splitlines]. rewrite Hc, IH. reflexivity.
Qed.
Lemma splitlines_lines : forall ls rest, Forall is_line ls -> splitlines_bytes true (join ls ++ rest) = ls ++ splitlines_bytes true rest.
Proof.
  intros ls rest H. induction H as [|l ls Hl _ IH]; [reflexivity|]. unfold join in *. cbn [concat]. rewrite <- app_assoc, splitlines_line by assumption.
  rewrite IH. reflexivity.
Qed.
Lemma delim_is_line : forall l, delim_line l -> is_line l.
Proof.
  intros l [-> | [-> | [-> | ->]]].
  - exists TAG, [LF]. split; [reflexivity|]. split; [repeat constructor|left; reflexivity].
  - exists TAG, [CR; LF]. split; [reflexivity|]. split; [repeat constructor|right; reflexivity].
  - exists (TAG ++ repeat blank 74), [LF]. split; [rewrite app_assoc; reflexivity|]. split; [repeat constructor|left; reflexivity].
  - exists (TAG ++ repeat blank 74), [CR; LF]. split; [rewrite app_assoc; reflexivity|]. split; [repeat constructor|right; reflexivity].
Qed.
Lemma delim_is_m1 : forall l, delim_line l -> is_m1 l = true /\ last1 l = [LF].
Proof. intros l [-> | [-> | [-> | ->]]]; split; reflexivity. Qed.

(** ** Blocks of text *)

Lemma dropwhile_first : forall f c r, f c = false -> dropwhile f (c :: r) = c :: r.
Proof. intros f c r H. cbn [dropwhile]. rewrite H. reflexivity. Qed.
Lemma dropwhile_app_all : forall f a b, Forall (fun c => f c = true) a -> dropwhile f (a ++ b) = dropwhile f b.
Proof. intros f a b H. induction H as [|c a Hc _ IH]; [reflexivity|]. cbn [app dropwhile]. rewrite Hc. exact IH. Qed.
Lemma rstrip_crlf_line : forall w t, inline w -> eol t -> rstrip_crlf (w ++ t) = w.
Proof.
  intros w t Hw Ht. unfold rstrip_crlf, rstrip_by. rewrite rev_app_distr, dropwhile_app_all.
  - destruct (rev w) as [|c r] eqn:E.
    + rewrite <- (rev_involutive w), E. reflexivity.
    + rewrite dropwhile_first; [rewrite <- E, rev_involutive; reflexivity|]. unfold inline in Hw. rewrite Forall_forall in Hw. apply Hw.
      apply in_rev. rewrite E. left. reflexivity.
  - destruct Ht as [-> | ->]; repeat constructor.
Qed.
(** A line with something in it, and not just the two characters [-1]. *)
Definition solid (w : bytes) : Prop := exists c, In c w /\ is_ws_bytes c = false.
Lemma dropwhile_in : forall f s c, In c s -> f c = false -> exists p q, s = p ++ dropwhile f s /\ dropwhile f s = q /\ In c q /\ Forall (fun x => f x = true) p.
Proof.
  intros f s c. induction s as [|a s IH]; intros Hin Hc; [contradiction|]. cbn [dropwhile]. destruct (f a) eqn:E.
  - destruct Hin as [->|Hin]; [congruence|]. destruct (IH Hin Hc) as (p & q & H1 & H2 & H3 & H4). exists (a :: p), q. cbn [app]. rewrite <- H1. auto.
  - exists [], (a :: s). auto.
Qed.
Lemma glued_not_m1 : forall w, solid w -> is_m1 (w ++ minus1 ++ [LF]) = false.
Proof.
  intros w (c & Hin & Hc). unfold is_m1, strip_by, lstrip_by.
  destruct (dropwhile_in is_ws_bytes w c Hin Hc) as (p & q & H1 & H2 & H3 & H4).
  rewrite H1, H2, <- app_assoc. rewrite dropwhile_app_all by assumption.
  assert (E : dropwhile is_ws_bytes (q ++ minus1 ++ [LF]) = q ++ minus1 ++ [LF]).
  { destruct q as [|x q]; [contradiction|]. cbn [app]. apply dropwhile_first.
    revert H2. clear. induction w as [|a w IH]; [discriminate|]. cbn [dropwhile]. destruct (is_ws_bytes a) eqn:E; [exact IH|]. intro H. injection H as -> _. exact E. }
  rewrite E. unfold rstrip_by. rewrite rev_app_distr. change (rev (minus1 ++ [LF])) with ([LF] ++ rev minus1).
  rewrite <- app_assoc, dropwhile_app_all by (repeat constructor).
  change (rev minus1 ++ rev q) with (49%N :: ([45; 32; 32; 32; 32]%N ++ rev q)). rewrite dropwhile_first by reflexivity.
  destruct (leqb (rev (49%N :: [45; 32; 32; 32; 32]%N ++ rev q)) (lit "-1")) eqn:L; [|reflexivity].
  apply leqb_eq in L. apply (f_equal (@length N)) in L. rewrite rev_length in L. cbn [length app] in L. discriminate.
Qed.

(** The body of a block as lines: all but the last, and the last without its line break. *)
Record lines_of (b : block) (ls : list bytes) (w : bytes) : Prop := {
  lo_open : delim_line (b_open b);
  lo_close : delim_line (b_close b);
  lo_body : exists t, eol t /\ b_body b = join ls ++ w ++ t;
  lo_lines : Forall is_line ls;
  lo_plain : Forall (fun l => is_m1 l = false) ls;
  lo_last : inline w;
  lo_solid : solid w;
  lo_not : forall t, eol t -> is_m1 (w ++ t) = false }.
(** The block with its closing delimiter moved up. *)
Definition moved (b : block) (ls : list bytes) (w : bytes) : block := {| b_open := b_open b; b_body := join ls ++ w; b_close := TAG ++ [LF] |}.
Definition moved_lines (b : block) (ls : list bytes) (w : bytes) : list bytes := b_open b :: ls ++ [w ++ TAG ++ [LF]].

Lemma fixes_plain : forall a ls R out, Forall (fun l => is_m1 l = false) ls -> (forall a, fixes (a :: R) (a :: out)) -> fixes (a :: ls ++ R) (a :: ls ++ out).
Proof.
  intros a ls R out H HR. revert a. induction H as [|l ls Hl _ IH]; intro a; [apply HR|]. cbn [app]. apply fixes_skip; [|apply IH].
  intros b c t E. injection E as <- _. rewrite Hl. reflexivity.
Qed.
(** A block with its lines, and the lines as they are in the file. *)
Definition tblock : Type := (block * list bytes * bytes)%type.
Definition tb (x : tblock) : block := fst (fst x).
Definition good (x : tblock) : Prop := lines_of (tb x) (snd (fst x)) (snd x).
Definition in_file (x : tblock) (p : list bytes) : Prop := exists t, eol t /\ b_body (tb x) = join (snd (fst x)) ++ snd x ++ t /\
  p = b_open (tb x) :: snd (fst x) ++ [snd x ++ t; b_close (tb x)].
Definition mv (x : tblock) : block := moved (tb x) (snd (fst x)) (snd x).
Definition mvl (x : tblock) : list bytes := moved_lines (tb x) (snd (fst x)) (snd x).

(** Two lines in, the text starts. *)
Lemma starts : forall bs l pre, Forall good bs -> good l -> Forall2 in_file bs pre ->
  exists o x r, concat pre ++ mvl l = o :: x :: r /\ is_m1 o = true /\ is_m1 x = false.
Proof.
  intros bs l pre Hb Hl Hp. destruct Hp as [|[[b ls] w] p bs pre (t & Ht & E & ->) _].
  - destruct l as [[b ls] w]. unfold good, tb, mvl, moved_lines in *. cbn [fst snd concat app] in *. destruct Hl as [Ho _ _ _ Hp _ Hs _].
    destruct ls as [|x ls].
    + eexists _, _, _. split; [reflexivity|]. split; [apply delim_is_m1; assumption|]. apply glued_not_m1. exact Hs.
    + inversion Hp; subst. eexists _, _, _. split; [reflexivity|]. split; [apply delim_is_m1; assumption|assumption].
  - inversion Hb as [|? ? H0 _]; subst. unfold good, tb in *. cbn [fst snd concat app] in *. destruct H0 as [Ho _ _ _ Hp' _ _ Hn].
    destruct ls as [|x ls].
    + eexists _, _, _. split; [reflexivity|]. split; [apply delim_is_m1; assumption|]. apply Hn. exact Ht.
    + inversion Hp'; subst. eexists _, _, _. split; [reflexivity|]. split; [apply delim_is_m1; assumption|assumption].
Qed.
(** Blocks that are followed by another, then the last one (already moved). *)
Lemma fixes_blocks : forall bs l pre, Forall good bs -> good l -> Forall2 in_file bs pre -> fixes (concat pre ++ mvl l) (concat (map mvl bs) ++ mvl l).
Proof.
  intros bs l pre Hbs Hl Hp. induction Hp as [|[[b ls] w] p bs pre (t & Ht & Hb & ->) Hp IH].
  - cbn [map concat app]. destruct l as [[b ls] w]. unfold mvl, moved_lines. cbn [fst snd tb]. apply fixes_plain; [apply Hl|]. intro a. apply fixes_short. cbn. lia.
  - inversion Hbs as [|? ? H0 Hr]; subst. specialize (IH Hr). destruct (starts bs l pre Hr Hl Hp) as (o & x & r & E & Eo & Ex).
    cbn [map concat]. rewrite <- !app_assoc. rewrite E in IH |- *. set (out := concat (map mvl bs) ++ mvl l) in *.
    unfold mvl, moved_lines, good, tb in *. cbn [fst snd] in *. cbn [app]. rewrite <- !app_assoc. apply fixes_plain; [apply H0|].
    intro a. cbn [app]. destruct H0 as [Ho Hc _ _ _ Hw Hs Hn]. apply fixes_skip.
    { intros b1 c1 t1 E1. injection E1 as <- _. rewrite Hn by assumption. reflexivity. }
    destruct (delim_is_m1 _ Hc) as [Mc Lc]. apply fixes_glue; [assumption..|]. unfold glue. rewrite rstrip_crlf_line, Lc by assumption.
    change minus1 with TAG. apply fixes_skip; [|exact IH]. intros b1 c1 t1 E1. injection E1 as <- <- _. rewrite Ex. apply andb_false_r.
Qed.

Lemma good_file : forall x, good x -> exists p, in_file x p /\ Forall is_line p /\ join p = block_bytes (tb x).
Proof.
  intros [[b ls] w] [Ho Hc (t & Ht & Hb) Hl _ Hw _ _]. unfold tb in *. cbn [fst snd] in *.
  exists (b_open b :: ls ++ [w ++ t; b_close b]). split; [exists t; auto|]. split.
  - constructor; [apply delim_is_line; assumption|]. apply Forall_app. split; [assumption|]. constructor; [exists w, t; auto|]. constructor; [apply delim_is_line; assumption|constructor].
  - unfold join, block_bytes in *. cbn [concat]. rewrite concat_app, Hb. cbn [concat]. unfold join. rewrite app_nil_r, <- !app_assoc. reflexivity.
Qed.
Lemma good_files : forall bs, Forall good bs -> exists pre, Forall2 in_file bs pre /\ Forall is_line (concat pre) /\ join (concat pre) = file_of (map tb bs).
Proof.
  intros bs H. induction H as [|x bs Hx _ (pre & H1 & H2 & H3)]; [exists []; repeat split; constructor|].
  destruct (good_file x Hx) as (p & Hp & Hl & Hj). exists (p :: pre). split; [constructor; assumption|]. cbn [concat map]. split; [apply Forall_app; auto|].
  unfold join, file_of in *. cbn [map concat]. rewrite concat_app, Hj, H3. reflexivity.
Qed.
Lemma join_mvl : forall x, join (mvl x) = block_bytes (mv x).
Proof.
  intros [[b ls] w]. unfold join, mvl, mv, moved_lines, moved, block_bytes. cbn [fst snd tb b_open b_body b_close concat]. rewrite concat_app. cbn [concat].
  unfold join. rewrite app_nil_r, <- !app_assoc. reflexivity.
Qed.
Lemma join_mvls : forall bs, join (concat (map mvl bs)) = file_of (map mv bs).
Proof.
  induction bs as [|x bs IH]; [reflexivity|]. unfold join, file_of in *. cbn [map concat]. rewrite concat_app, IH. f_equal. apply join_mvl.
Qed.
(** A file of such blocks: every closing delimiter is moved up. *)
Lemma fix_58b_file : forall bs l, Forall good bs -> good l -> fix_58b (file_of (map tb (bs ++ [l]))) = Ok (file_of (map mv (bs ++ [l]))).
Proof.
  intros bs l Hb Hl. destruct (good_files bs Hb) as (pre & P1 & P2 & P3). destruct (good_file l Hl) as (p & Q1 & Q2 & Q3).
  assert (E : splitlines_bytes true (file_of (map tb (bs ++ [l]))) = concat pre ++ p).
  { rewrite map_app. unfold file_of in *. rewrite map_app, concat_app. cbn [map concat]. rewrite app_nil_r, <- P3, <- Q3.
    rewrite splitlines_lines by assumption. f_equal. rewrite <- (app_nil_r (join p)), splitlines_lines, app_nil_r by assumption. reflexivity. }
  rewrite (fix_58b_fixes _ (concat (map mvl bs) ++ mvl l)).
  - f_equal. rewrite map_app. unfold file_of. rewrite map_app, concat_app. cbn [map concat]. rewrite app_nil_r, <- join_mvl.
    unfold join at 1. rewrite concat_app. f_equal. exact (join_mvls bs).
  - rewrite E. destruct l as [[b ls] w]. destruct Q1 as (t & Ht & Eb & ->). unfold tb in *. cbn [fst snd] in *.
    replace (fix1 (concat pre ++ b_open b :: ls ++ [w ++ t; b_close b])) with (concat pre ++ mvl (b, ls, w)); [apply fixes_blocks; assumption|].
    unfold fix1. replace (concat pre ++ b_open b :: ls ++ [w ++ t; b_close b]) with (((concat pre ++ b_open b :: ls) ++ [w ++ t]) ++ [b_close b])
      by (rewrite <- !app_assoc; reflexivity).
    set (X := concat pre ++ b_open b :: ls). rewrite rev_app_distr, rev_app_distr. cbn [rev app]. destruct (delim_is_m1 _ (lo_close _ _ _ Hl)) as [Mc Lc]. unfold tb in Mc, Lc. cbn [fst snd] in Mc, Lc. rewrite Mc. cbn [rev].
    rewrite rev_involutive. unfold glue. rewrite rstrip_crlf_line, Lc by (assumption || apply Hl).
    unfold mvl, moved_lines, X. cbn [fst snd tb]. rewrite <- !app_assoc. reflexivity.
Qed.

(** ** The moved blocks are framed *)

Lemma tags_before : forall w, (forall i, prefixb TAG (skipn i w) = false) -> forall i, i < length w -> prefixb TAG (skipn i (w ++ TAG ++ [LF])) = false.
Proof.
  intros w Hw i Hi. destruct (prefixb TAG (skipn i (w ++ TAG ++ [LF]))) eqn:E; [|reflexivity]. exfalso. specialize (Hw i).
  rewrite skipn_app in E. replace (i - length w) with 0 in E by lia. rewrite skipn_O in E. assert (L := skipn_length i w). set (s := skipn i w) in *.
  destruct s as [|c0 [|c1 [|c2 [|c3 [|c4 [|c5 s]]]]]]; cbn [length] in L; [lia|..]; unfold prefixb, TAG in *; cbn in E, Hw;
    rewrite ?andb_false_r in E; try discriminate; congruence.
Qed.
Lemma framed_moved : forall x, good x -> framed (tb x) -> (forall i, prefixb TAG (skipn i (snd x)) = false) -> framed (mv x).
Proof.
  intros [[b ls] w] [Ho Hc (t & Ht & Hb) Hl _ Hw _ _] (_ & _ & F) Hn. unfold tb, mv, moved in *. cbn [fst snd] in *.
  split; [exact Ho|]. split; [left; reflexivity|]. cbn [b_body b_close]. intros i Hi D.
  assert (CJ : closed (join ls)).
  { unfold join. apply closed_concat. eapply Forall_impl; [|exact Hl]. intros l (v & s & -> & _ & Hs). right.
    destruct Hs as [-> | ->]; [exists v, LF; auto|]. exists (v ++ [CR]), LF. rewrite <- app_assoc. auto. }
  apply tags_In in D. rewrite <- app_assoc, tags_app_closed in D by exact CJ. apply in_app_iff in D. destruct D as [D|D].
  - assert (i < length (join ls)) by (apply tags_bound in D; lia).
    apply (F i); [rewrite Hb, !app_length; lia|]. apply tags_In. rewrite Hb, <- app_assoc, tags_app_closed by exact CJ. apply in_app_iff. left. exact D.
  - apply in_map_iff in D. destruct D as (j & <- & D). apply tags_In in D. apply tag_head_spec in D. rewrite app_length in Hi.
    unfold tag_head in D. rewrite tags_before in D by (assumption || lia). discriminate.
Qed.
Lemma first_line_app : forall a b, (exists c, In c a /\ is_lb_bytes c = true) -> first_line (a ++ b) = first_line a.
Proof.
  intros a b (c & Hin & Hc). induction a as [|x a IH]; [contradiction|]. cbn [app first_line]. destruct (is_lb_bytes x) eqn:E; [reflexivity|].
  destruct Hin as [->|Hin]; [congruence|]. rewrite IH by assumption. reflexivity.
Qed.
Lemma first_line_inline : forall w t, inline w -> eol t -> first_line (w ++ t) = w.
Proof.
  intros w t Hw Ht. induction Hw as [|c w Hc _ IH]; [destruct Ht as [-> | ->]; reflexivity|]. cbn [app first_line]. rewrite Hc, IH. reflexivity.
Qed.
Lemma first_line_whole : forall w, inline w -> first_line w = w.
Proof. intros w Hw. induction Hw as [|c w Hc _ IH]; [reflexivity|]. cbn [first_line]. rewrite Hc, IH. reflexivity. Qed.
Lemma type_moved : forall x, good x -> type_in (b_body (mv x)) = type_in (b_body (tb x)).
Proof.
  intros [[b ls] w] [_ _ (t & Ht & Hb) Hl _ Hw _ _]. unfold tb, mv, moved, type_in in *. cbn [fst snd b_body] in *. rewrite Hb.
  replace (first_line (join ls ++ w)) with (first_line (join ls ++ w ++ t)); [reflexivity|]. destruct Hl as [|l ls Hl _].
  - cbn [join concat app]. rewrite first_line_inline, first_line_whole by assumption. reflexivity.
  - assert (X : exists c, In c l /\ is_lb_bytes c = true).
    { destruct Hl as (v & s & -> & _ & Hs). exists LF. split; [|reflexivity]. apply in_app_iff. right. destruct Hs as [-> | ->]; cbn; auto. }
    unfold join. cbn [concat]. rewrite <- !app_assoc, !first_line_app by assumption. reflexivity.
Qed.
