(** Text lines that contain no delimiter, their encoding, and the block a text
    writer appends. *)
From Verif Require Import PyBase PyNum PyVal Utf8 Tools DsNodes DsHeaders Uff Facts Scan Container Append Utf8Facts.
From Coq Require Import Lia.
Open Scope nat_scope.
Open Scope list_scope.

(* ------------------------------------------------------------------ *)
(** ** Encoding does not create or destroy delimiters *)

Lemma utf8_enc_cons : forall c s b, utf8_enc (c :: s) = Some b ->
  exists b1 b2, enc1 c = Some b1 /\ utf8_enc s = Some b2 /\ b = b1 ++ b2.
Proof.
  intros c s b H. cbn [utf8_enc] in H. destruct (enc1 c) as [b1|]; [|discriminate].
  destruct (utf8_enc s) as [b2|]; [|discriminate]. exists b1, b2. split; [reflexivity|]. split; congruence.
Qed.

Lemma prefixb_enc : forall P s b, Forall (fun c => (c < 128)%N) P -> utf8_enc s = Some b -> prefixb P b = prefixb P s.
Proof.
  induction P as [|x P IH]; intros s b HP H; [reflexivity|]. inversion HP as [|? ? Hx HP']; subst.
  destruct s as [|c s]; [cbn in H; injection H as <-; reflexivity|].
  apply utf8_enc_cons in H as (b1 & b2 & H1 & H2 & ->).
  destruct (enc1_shape _ _ H1) as [[_ ->]|(Hc & Hn & Hb)].
  - cbn [app prefixb]. rewrite (IH s b2) by assumption. reflexivity.
  - destruct b1 as [|y b1]; [congruence|]. inversion Hb as [|? ? Hy _]; subst. cbn [app prefixb].
    rewrite (proj2 (N.eqb_neq x y)) by lia. rewrite (proj2 (N.eqb_neq x c)) by lia. reflexivity.
Qed.
Lemma skipn_enc : forall P s b, Forall (fun c => (c < 128)%N) P -> utf8_enc s = Some b -> prefixb P s = true ->
  utf8_enc (skipn (length P) s) = Some (skipn (length P) b).
Proof.
  induction P as [|x P IH]; intros s b HP H Hp; [assumption|]. inversion HP as [|? ? Hx HP']; subst.
  destruct s as [|c s]; [discriminate|]. cbn [prefixb] in Hp. apply andb_true_iff in Hp as [E Hp]. apply N.eqb_eq in E. subst c.
  apply utf8_enc_cons in H as (b1 & b2 & H1 & H2 & ->).
  destruct (enc1_shape _ _ H1) as [[_ ->]|(Hc & _)]; [|lia]. cbn [length skipn app]. apply IH; assumption.
Qed.
Lemma blanks_ascii : forall n, Forall (fun c => (c < 128)%N) (repeat blank n).
Proof. intro n. apply Forall_forall. intros x Hx. apply repeat_spec in Hx. subst. reflexivity. Qed.
Lemma TAG_ascii : Forall (fun c => (c < 128)%N) TAG.
Proof. unfold TAG. cbn. repeat constructor. Qed.
Lemma utf8_enc_nil : forall s, utf8_enc s = Some [] -> s = [].
Proof.
  intros [|c s] H; [reflexivity|]. apply utf8_enc_cons in H as (b1 & b2 & H1 & _ & H).
  symmetry in H. apply app_eq_nil in H as [-> _]. destruct (enc1_shape _ _ H1) as [[_ H]|(_ & H & _)]; congruence.
Qed.

Lemma tag_tail_enc : forall s b, utf8_enc s = Some b -> tag_tail b = tag_tail s.
Proof.
  intros s b H. destruct s as [|c s]; [injection H as <-; reflexivity|].
  assert (H0 := H). apply utf8_enc_cons in H as (b1 & b2 & H1 & H2 & E).
  assert (Hp : prefixb (repeat blank 74) b = prefixb (repeat blank 74) (c :: s)) by (apply prefixb_enc; [apply blanks_ascii|assumption]).
  assert (Hl : prefixb (repeat blank 74) (c :: s) = true -> Nat.ltb 74 (length b) = Nat.ltb 74 (length (c :: s))).
  { intro Hb. assert (Hs := skipn_enc _ _ _ (blanks_ascii 74) H0 Hb). rewrite repeat_length in Hs.
    destruct (Nat.ltb_spec 74 (length b)) as [L|L], (Nat.ltb_spec 74 (length (c :: s))) as [L'|L']; try reflexivity.
    - rewrite (skipn_short _ 74 (c :: s)) in Hs by assumption.
      change (utf8_enc []) with (Some (@nil N)) in Hs.
      assert (Hx : length (skipn 74 b) = 0) by (replace (skipn 74 b) with (@nil N) by congruence; reflexivity). rewrite skipn_length in Hx. lia.
    - rewrite (skipn_short _ 74 b) in Hs by assumption. apply utf8_enc_nil in Hs.
      assert (Hx : length (skipn 74 (c :: s)) = 0) by (rewrite Hs; reflexivity). rewrite skipn_length in Hx. lia. }
  unfold tag_tail. destruct b as [|y b'].
  { symmetry in E. apply app_eq_nil in E as [-> _]. destruct (enc1_shape _ _ H1) as [[_ X]|(_ & X & _)]; congruence. }
  assert (Hlb : is_lb_bytes y = is_lb_bytes c).
  { destruct (enc1_shape _ _ H1) as [[_ ->]|(Hc & Hn & Hb)].
    - cbn in E. congruence.
    - destruct b1 as [|z b1]; [congruence|]. inversion Hb; subst. cbn in E. injection E as -> _. unfold is_lb_bytes.
      rewrite !(proj2 (N.eqb_neq _ _)) by lia. reflexivity. }
  rewrite Hlb, Hp. destruct (prefixb (repeat blank 74) (c :: s)) eqn:Ep; [|reflexivity]. rewrite Hl by reflexivity. reflexivity.
Qed.
Lemma tag_head_enc : forall s b, utf8_enc s = Some b -> tag_head b = tag_head s.
Proof.
  intros s b H. unfold tag_head. rewrite (prefixb_enc TAG s b TAG_ascii H). destruct (prefixb TAG s) eqn:E; [|reflexivity].
  cbn [andb]. apply tag_tail_enc. apply (skipn_enc TAG s b TAG_ascii H E).
Qed.
Lemma tag_head_high : forall x b, (128 <= x)%N -> tag_head (x :: b) = false.
Proof. intros x b H. unfold tag_head, TAG. cbn [lit prefixb]. rewrite (proj2 (N.eqb_neq _ _)) by (cbn; lia). reflexivity. Qed.

Lemma tags_from_high : forall b1 b2 off, Forall (fun x => (128 <= x < 256)%N) b1 ->
  tags_from off (b1 ++ b2) = tags_from (off + length b1) b2.
Proof.
  induction b1 as [|x b1 IH]; intros b2 off H; cbn [app tags_from length].
  - rewrite Nat.add_0_r. reflexivity.
  - inversion H as [|? ? Hx Hb]; subst. rewrite tag_head_high by lia. rewrite IH by assumption. f_equal. lia.
Qed.
(** A text without delimiters has an encoding without delimiters. *)
Lemma tags_enc_nil : forall s b off, utf8_enc s = Some b -> tags s = [] -> tags_from off b = [].
Proof.
  unfold tags. induction s as [|c s IH]; intros b off H Ht.
  - injection H as <-. reflexivity.
  - assert (H0 := H). apply utf8_enc_cons in H as (b1 & b2 & H1 & H2 & E). cbn [tags_from] in Ht.
    destruct (tag_head (c :: s)) eqn:Eh; [discriminate|].
    assert (Ht' : tags_from 0 s = []).
    { rewrite tags_from_shift in Ht. apply map_eq_nil in Ht. assumption. }
    destruct (enc1_shape _ _ H1) as [[_ ->]|(Hc & Hn & Hb)].
    + subst b. cbn [app tags_from]. cbn [app] in H0. rewrite (tag_head_enc _ _ H0), Eh. eauto.
    + subst b. rewrite tags_from_high by assumption. eauto.
Qed.

(* ------------------------------------------------------------------ *)
(** ** Lines *)

Definition okline (l : str) : Prop :=
  no_lb is_lb_str l = true /\ tags (l ++ [LF]) = [] /\ Forall scalar l.

Lemma no_lb_str_bytes : forall l, no_lb is_lb_str l = true -> no_lb is_lb_bytes l = true.
Proof.
  unfold no_lb. induction l as [|c l IH]; simpl; auto. intro H. apply andb_true_iff in H as [H1 H2].
  rewrite IH by assumption. rewrite andb_true_r. unfold is_lb_str in H1. unfold is_lb_bytes.
  destruct (c =? 10)%N; [discriminate|]. destruct (c =? 13)%N; [|reflexivity]. rewrite !orb_true_r in H1. discriminate.
Qed.
Lemma unlines_tags : forall ls, Forall okline ls -> tags (unlines ls) = [].
Proof.
  induction ls as [|l ls IH]; intro H; [reflexivity|]. inversion H as [|? ? (_ & Hl & _) Hls]; subst.
  unfold unlines. cbn [map concat]. fold (unlines ls).
  rewrite tags_app_closed by (right; exists l, LF; auto). rewrite Hl, IH by assumption. reflexivity.
Qed.
Lemma scalar_ascii : forall c, (c < 128)%N -> scalar c.
Proof. intros c H. left. lia. Qed.
Lemma unlines_scalar : forall ls, Forall (Forall scalar) ls -> Forall scalar (unlines ls).
Proof.
  intros ls H. unfold unlines. induction H as [|l ls Hl _ IH]; cbn [map concat]; [constructor|].
  rewrite !Forall_app. split; [split; [assumption|]|assumption]. constructor; [apply scalar_ascii; reflexivity|constructor].
Qed.
Lemma okline_scalar : forall ls, Forall okline ls -> Forall (Forall scalar) ls.
Proof. intros ls H. eapply Forall_impl; [|exact H]. intros l (_ & _ & Hs). exact Hs. Qed.

(* ------------------------------------------------------------------ *)
(** ** Steps of a text writer *)

Inductive writes : list item -> str -> Prop :=
| writes_nil : writes [] []
| writes_cons : forall s l t, writes l t -> writes (WTxt (Ok s) :: l) (s ++ t).

Lemma writes_app : forall a s b t, writes a s -> writes b t -> writes (a ++ b) (s ++ t).
Proof. intros a s b t Ha Hb. induction Ha; [assumption|]. cbn [app]. rewrite <- app_assoc. constructor. assumption. Qed.
Lemma writes_one : forall r s, r = Ok s -> writes [WTxt r] s.
Proof. intros r s ->. rewrite <- (app_nil_r s) at 2. constructor. constructor. Qed.
Lemma writes_eq : forall l s t, writes l s -> s = t -> writes l t.
Proof. intros; subst; assumption. Qed.
Lemma writes_consr : forall r s l t, r = Ok s -> writes l t -> writes (WTxt r :: l) (s ++ t).
Proof. intros r s l t -> H. constructor. assumption. Qed.
Lemma writes_flat_map : forall A (f : A -> list item) (g : A -> str) l,
  (forall a, In a l -> writes (f a) (g a)) -> writes (flat_map f l) (concat (map g l)).
Proof.
  intros A f g l H. induction l as [|a l IH]; cbn [flat_map map concat]; [constructor|].
  apply writes_app; [apply H; left; reflexivity|]. apply IH. intros. apply H. right. assumption.
Qed.
Lemma writes_flat_map2 : forall A B (f : A -> list item) (g : B -> str) l l',
  Forall2 (fun a b => writes (f a) (g b)) l l' -> writes (flat_map f l) (concat (map g l')).
Proof.
  intros A B f g l l' H. induction H; cbn [flat_map map concat]; [constructor|]. apply writes_app; assumption.
Qed.

Lemma writes_run : forall l t, writes l t -> forall b f, utf8_enc t = Some b -> run_items f l = (f ++ b, None).
Proof.
  intros l t H. induction H as [|s l t _ IH]; intros b f Hb.
  - injection Hb as <-. cbn. rewrite app_nil_r. reflexivity.
  - rewrite utf8_enc_app in Hb. destruct (utf8_enc s) as [b1|] eqn:E1; [|discriminate].
    destruct (utf8_enc t) as [b2|]; [|discriminate]. injection Hb as <-. cbn [run_items]. unfold utf8_encode.
    rewrite E1. cbn [of_option]. rewrite (IH b2) by reflexivity. rewrite app_assoc. reflexivity.
Qed.

(* ------------------------------------------------------------------ *)
(** ** The written block *)

Definition TLINE : bytes := TAG ++ [LF].
(** First line: ASCII, the type in the first six columns. *)
Definition type_line (ty : Z) (l : str) : bool :=
  forallb (fun c => (c <? 128)%N && negb (is_lb_bytes c)) l
  && match py_int_bytes (firstn 6 l) with Ok z => (z =? ty)%Z | Err _ => false end.

Definition text_block (body : bytes) : block := {| b_open := TLINE; b_body := body; b_close := TLINE |}.

Lemma first_line_app : forall l r, no_lb is_lb_bytes l = true -> first_line (l ++ LF :: r) = l.
Proof.
  induction l as [|c l IH]; intros r H; [reflexivity|]. cbn [no_lb forallb] in H. apply andb_true_iff in H as [H1 H2].
  apply negb_true_iff in H1. cbn [app first_line]. rewrite H1. f_equal. apply IH. assumption.
Qed.

Lemma TLINE_enc : utf8_enc TLINE = Some TLINE.
Proof. reflexivity. Qed.

Lemma text_block_ok : forall ty l0 ls, Forall okline (l0 :: ls) -> type_line ty l0 = true ->
  exists body, utf8_enc (unlines (l0 :: ls)) = Some body /\
    utf8_enc (TLINE ++ unlines (l0 :: ls) ++ TLINE) = Some (block_bytes (text_block body)) /\
    framed (text_block body) /\ type_in body = ty /\
    utf8_decode (TLINE ++ body) = unlines (TAG :: l0 :: ls).
Proof.
  intros ty l0 ls Hok Hty.
  destruct (utf8_enc_some (unlines (l0 :: ls))) as [body Hb]. { apply unlines_scalar, okline_scalar, Hok. }
  exists body. split; [assumption|]. split.
  { rewrite !utf8_enc_app, TLINE_enc, Hb. reflexivity. }
  split.
  { split; [left; reflexivity|]. split; [left; reflexivity|]. intros i Hi Hd. cbn [text_block b_body b_close] in *.
    apply tags_In in Hd. rewrite tags_app_closed in Hd.
    - assert (E : tags body = []) by (apply (tags_enc_nil (unlines (l0 :: ls))); [assumption|apply unlines_tags; assumption]).
      rewrite E in Hd. apply in_map_iff in Hd as (x & <- & _). lia.
    - rewrite unlines_cons in Hb. change (l0 ++ LF :: unlines ls) with (l0 ++ [LF] ++ unlines ls) in Hb.
      assert (Hc : unlines (l0 :: ls) <> [] /\ exists q, unlines (l0 :: ls) = q ++ [LF]).
      { destruct (closed_unlines (l0 :: ls)) as [E|(q & c & E & Hc)].
        - rewrite unlines_cons in E. destruct l0; discriminate.
        - split; [rewrite E; destruct q; discriminate|].
          unfold unlines. destruct (exists_last (l := l0 :: ls) ltac:(discriminate)) as (p & x & ->).
          exists (concat (map (fun l => l ++ [LF]) p) ++ x). rewrite map_app, concat_app. cbn. rewrite app_nil_r, app_assoc. reflexivity. }
      destruct Hc as [_ (q & Hq)]. rewrite unlines_cons in Hq. change (l0 ++ LF :: unlines ls) with (l0 ++ [LF] ++ unlines ls) in Hq.
      rewrite Hq, utf8_enc_app in Hb. destruct (utf8_enc q) as [bq|]; [|discriminate]. cbn in Hb. injection Hb as <-.
      right. exists bq, LF. auto. }
  apply andb_true_iff in Hty as [Ha Ht].
  assert (Hasc : utf8_enc l0 = Some l0).
  { apply utf8_enc_ascii. apply Forall_forall. intros c Hc. rewrite forallb_forall in Ha. specialize (Ha c Hc).
    apply andb_true_iff in Ha as [Ha _]. apply N.ltb_lt in Ha. assumption. }
  assert (Hn0 : no_lb is_lb_bytes l0 = true).
  { unfold no_lb. apply forallb_forall. intros c Hc. rewrite forallb_forall in Ha. specialize (Ha c Hc).
    apply andb_true_iff in Ha as [_ Ha]. assumption. }
  split.
  { rewrite unlines_cons in Hb. change (l0 ++ LF :: unlines ls) with (l0 ++ [LF] ++ unlines ls) in Hb.
    rewrite !utf8_enc_app, Hasc in Hb. destruct (utf8_enc (unlines ls)) as [t|]; [|discriminate]. cbn in Hb. injection Hb as <-.
    unfold type_in. rewrite first_line_app by assumption. destruct (py_int_bytes (firstn 6 l0)); [|discriminate].
    apply Z.eqb_eq. assumption. }
  assert (Hf : utf8_enc (TLINE ++ unlines (l0 :: ls)) = Some (TLINE ++ body)) by (rewrite utf8_enc_app, TLINE_enc, Hb; reflexivity).
  rewrite <- (app_nil_r (TLINE ++ body)). rewrite (decode_encode _ _ [] Hf). cbn [utf8_decode]. rewrite app_nil_r.
  rewrite (unlines_cons TAG). unfold TLINE. rewrite <- app_assoc. reflexivity.
Qed.

(* ------------------------------------------------------------------ *)
(** ** Which lines are free of delimiters *)

Definition ends_tag (l : str) : Prop := exists p, l = p ++ TAG.

Lemma skipn_lt_app : forall A i (a b : list A), i <= length a -> skipn i (a ++ b) = skipn i a ++ b.
Proof. intros A i a b H. rewrite skipn_app. replace (i - length a) with 0 by lia. reflexivity. Qed.

(** Only a final "    -1", or one followed by 74 blanks, matters. *)
Lemma tags_line : forall l, no_lb is_lb_bytes l = true -> ~ ends_tag l ->
  containsb (TAG ++ repeat blank 74) l = false -> tags (l ++ [LF]) = [].
Proof.
  intros l Hlb He Hc80. destruct (tags (l ++ [LF])) as [|i r] eqn:E; [reflexivity|]. exfalso.
  assert (Hd : delim_at (l ++ [LF]) i) by (apply tags_In; rewrite E; left; reflexivity).
  destruct Hd as [Hp Ht]. change [32; 32; 32; 32; 45; 49]%N with TAG in Hp.
  assert (Hi : i <= length l).
  { destruct (Nat.le_gt_cases i (length l)); [assumption|]. rewrite skipn_short in Hp by (rewrite app_length; cbn; lia). discriminate. }
  assert (Hi6 : i + 6 <= length l).
  { destruct (Nat.le_gt_cases (i + 6) (length l)) as [|Hc]; [assumption|].
    rewrite skipn_lt_app in Hp by assumption. rewrite firstn_app, (firstn_short _ 6) in Hp by (rewrite skipn_length; lia).
    assert (Hin : In LF TAG).
    { rewrite <- Hp. rewrite skipn_length. destruct (6 - (length l - i)) eqn:E6; [lia|].
      apply in_or_app. right. cbn. left. reflexivity. }
    exfalso. apply (TAG_no_lb LF); [left; reflexivity|assumption]. }
  assert (Hp0 := Hp).
  rewrite skipn_lt_app in Hp by assumption. rewrite firstn_app in Hp. rewrite skipn_length in Hp.
  replace (6 - (length l - i)) with 0 in Hp by lia. rewrite firstn_O, app_nil_r in Hp.
  rewrite app_length in Ht. cbn [length] in Ht. destruct Ht as [Ht|[(c & Hc & Hc')|[Ht Hb]]].
  - lia.
  - assert (Hlast : i + 6 = length l).
    { destruct (Nat.eq_dec (i + 6) (length l)); [assumption|]. exfalso.
      rewrite nth_error_app1 in Hc by lia. apply nth_error_In in Hc. unfold no_lb in Hlb. rewrite forallb_forall in Hlb.
      specialize (Hlb c Hc). unfold is_lb_bytes in Hlb. destruct Hc' as [-> | ->]; discriminate. }
    apply He. exists (firstn i l). rewrite <- Hp. rewrite (firstn_short _ 6) by (rewrite skipn_length; lia).
    symmetry. apply firstn_skipn.
  - enough (containsb (TAG ++ repeat blank 74) l = true) by congruence. apply containsb_iff.
    exists (firstn i l), (skipn (i + 80) l).
    assert (Hb' : firstn 74 (skipn (i + 6) l) = repeat blank 74).
    { change (repeat blank 74) with (repeat 32%N 74). rewrite <- Hb. rewrite skipn_lt_app by lia. rewrite firstn_app. rewrite skipn_length.
      replace (74 - (length l - (i + 6))) with 0 by lia. rewrite firstn_O, app_nil_r. reflexivity. }
    rewrite <- Hb', <- Hp at 1. rewrite <- !app_assoc.
    replace (i + 80) with (i + 6 + 74) by lia. rewrite <- (skipn_skipn_add _ 74). rewrite firstn_skipn.
    rewrite <- (skipn_skipn_add _ 6). rewrite firstn_skipn. symmetry. apply firstn_skipn.
Qed.
Lemma contains_length : forall p s, containsb p s = true -> length p <= length s.
Proof. intros p s H. apply containsb_iff in H as (a & b & ->). rewrite !app_length. lia. Qed.
Lemma tags_short : forall l, no_lb is_lb_bytes l = true -> ~ ends_tag l -> length l < 80 -> tags (l ++ [LF]) = [].
Proof.
  intros l H1 H2 H3. apply tags_line; try assumption. destruct (containsb (TAG ++ repeat blank 74) l) eqn:E; [|reflexivity].
  apply contains_length in E. rewrite app_length, repeat_length in E. change (length TAG) with 6 in E. lia.
Qed.
Lemma tags_gap : forall l, no_lb is_lb_bytes l = true -> ~ ends_tag l -> containsb (repeat blank 74) l = false -> tags (l ++ [LF]) = [].
Proof.
  intros l H1 H2 H3. apply tags_line; try assumption. destruct (containsb (TAG ++ repeat blank 74) l) eqn:E; [|reflexivity].
  apply containsb_iff in E as (a & b & ->). enough (containsb (repeat blank 74) (a ++ (TAG ++ repeat blank 74) ++ b) = true) by congruence.
  apply containsb_iff. exists (a ++ TAG), b. rewrite <- !app_assoc. reflexivity.
Qed.

(** Text without "    -1" padded with blanks. *)
Lemma tags_no_tag : forall s n, no_lb is_lb_bytes s = true -> containsb TAG s = false -> tags ((s ++ repeat blank n) ++ [LF]) = [].
Proof.
  intros s n Hlb Hc. destruct (tags ((s ++ repeat blank n) ++ [LF])) as [|i r] eqn:E; [reflexivity|]. exfalso.
  assert (Hd : delim_at ((s ++ repeat blank n) ++ [LF]) i) by (apply tags_In; rewrite E; left; reflexivity).
  destruct Hd as [Hp _]. change [32; 32; 32; 32; 45; 49]%N with TAG in Hp.
  enough (containsb TAG s = true) by congruence. apply containsb_iff.
  set (t := (s ++ repeat blank n) ++ [LF]) in *.
  assert (H5 : forall k, k < 6 -> nth_error t (i + k) = nth_error TAG k).
  { intros k Hk. rewrite <- Hp. rewrite <- (firstn_skipn i t) at 1.
    assert (Hl : length (firstn i t) = i).
    { apply firstn_length_le. assert (Hx := f_equal (@length N) Hp). rewrite firstn_length, skipn_length in Hx. change (length TAG) with 6 in Hx. lia. }
    rewrite nth_error_app2 by lia. rewrite Hl. replace (i + k - i) with k by lia.
    rewrite <- (firstn_skipn 6 (skipn i t)) at 1. rewrite nth_error_app1; [reflexivity|]. rewrite Hp. cbn. lia. }
  assert (Hi : i + 5 < length s).
  { destruct (Nat.lt_ge_cases (i + 5) (length s)) as [|Hge]; [assumption|]. exfalso.
    specialize (H5 5 ltac:(lia)). change (nth_error TAG 5) with (Some 49%N) in H5. unfold t in H5. rewrite <- app_assoc in H5.
    rewrite nth_error_app2 in H5 by assumption.
    destruct (Nat.lt_ge_cases (i + 5 - length s) n) as [L|L].
    - rewrite nth_error_app1 in H5 by (rewrite repeat_length; assumption). apply nth_error_In, repeat_spec in H5. discriminate.
    - rewrite nth_error_app2 in H5 by (rewrite repeat_length; assumption). apply nth_error_In in H5. cbn in H5.
      destruct H5 as [H5|[]]. discriminate. }
  exists (firstn i s), (skipn (i + 6) s). rewrite <- Hp. unfold t. rewrite <- app_assoc.
  rewrite skipn_lt_app by lia. rewrite firstn_app. rewrite skipn_length. replace (6 - (length s - i)) with 0 by lia.
  rewrite firstn_O, app_nil_r. rewrite <- skipn_skipn_add. rewrite firstn_skipn. symmetry. apply firstn_skipn.
Qed.
