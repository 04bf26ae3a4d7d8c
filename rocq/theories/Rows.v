(** Columns of values in a dictionary, the text of a set of rows, and the
    statement that a text block stores and returns a set. *)
From Verif Require Import PyBase PyNum PyVal Utf8 Tools DsNodes DsHeaders Uff Facts IntFacts FloatFacts DecFacts FloatText FloatExact DictFacts
  Scan Container Append ContainerThms Utf8Facts Lines Stored Cells.
From Coq Require Import Lia.
Open Scope nat_scope.
Open Scope list_scope.

(* ------------------------------------------------------------------ *)
(** ** Values and columns held by a dictionary *)

(** What a value is for the formats: an integer (%i), a real (%e), a text (%s). *)
Definition as_int (v : pyval) (z : Z) : Prop := fmt_int_arg v = Ok z.
Definition as_flt (v : pyval) (f : float) : Prop := fmt_float_arg v = Ok f.
Definition as_txt (v : pyval) (s : str) : Prop := to_str v = Ok s.
(** A value for int(): numbers and decimal text. *)
Definition as_intc (v : pyval) (z : Z) : Prop := to_int v = Ok z.
(** An integer for a float format. *)
Definition as_num (v : pyval) (z : Z) : Prop := fmt_float_arg v = Ok (float_of_Z z).

(** The entry [k] of [d] is [a] in the sense of [P]; [has_or]: or it is missing and [a] the default. *)
Definition has {A} (P : pyval -> A -> Prop) (d : dict) (k : string) (a : A) : Prop :=
  exists v, dget d (KS k) = Some v /\ P v a.
Definition has_or {A} (P : pyval -> A -> Prop) (d : dict) (k : string) (a dflt : A) : Prop :=
  has P d k a \/ (dget d (KS k) = None /\ a = dflt).
(** The entry is a sequence (list, tuple or array) of such values. *)
Definition seq_of {A} (P : pyval -> A -> Prop) (v : pyval) (l : list A) : Prop :=
  exists vs, to_seq v = Ok vs /\ Forall2 P vs l.

Lemma has_get : forall A (P : pyval -> A -> Prop) d k a, has P d k a -> exists v, ix d k = Ok v /\ P v a.
Proof. intros A P d k a (v & H & Hp). exists v. unfold ix. rewrite H. auto. Qed.
Lemma has_gi : forall d k z, has as_int d k z -> gi (ix d k) z.
Proof. intros d k z H. apply has_get in H as (v & -> & H). exact H. Qed.
Lemma has_gf : forall d k z, has as_flt d k z -> gf (ix d k) z.
Proof. intros d k z H. apply has_get in H as (v & -> & H). exact H. Qed.
Lemma has_gs : forall d k z, has as_txt d k z -> gs (ix d k) z.
Proof. intros d k z H. apply has_get in H as (v & -> & H). exact H. Qed.

Lemma Forall2_nth : forall A B (P : A -> B -> Prop) a b i y, Forall2 P a b -> nth_error b i = Some y ->
  exists x, nth_error a i = Some x /\ P x y.
Proof.
  intros A B P a b i y H. revert i. induction H as [|x0 y0 a b Hp _ IH]; intros [|i] Hi; try discriminate.
  - cbn in Hi. injection Hi as <-. exists x0. auto.
  - cbn in Hi |- *. auto.
Qed.
Lemma has_at : forall A (P : pyval -> A -> Prop) d k l i a, has (seq_of P) d k l -> nth_error l i = Some a ->
  exists v, at_ (ix d k) (Z.of_nat i) = Ok v /\ P v a.
Proof.
  intros A P d k l i a H Hi. apply has_get in H as (v & Hv & vs & Hs & H2).
  destruct (Forall2_nth _ _ _ _ _ _ _ H2 Hi) as (x & Hx & Hp). exists x. split; [|assumption].
  unfold at_. rewrite Hv. cbn [rbind]. rewrite Hs. cbn [rbind]. apply py_nth_ok. assumption.
Qed.
Lemma seq_at : forall A (P : pyval -> A -> Prop) r v l i a, r = Ok v -> seq_of P v l -> nth_error l i = Some a ->
  exists x, at_ r (Z.of_nat i) = Ok x /\ P x a.
Proof.
  intros A P r v l i a -> (vs & Hs & H2) Hi. destruct (Forall2_nth _ _ _ _ _ _ _ H2 Hi) as (x & Hx & Hp).
  exists x. split; [|assumption]. unfold at_. cbn [rbind]. rewrite Hs. cbn [rbind]. apply py_nth_ok. assumption.
Qed.
Lemma has_gi_at : forall d k l i a, has (seq_of as_int) d k l -> nth_error l i = Some a -> gi (at_ (ix d k) (Z.of_nat i)) a.
Proof. intros d k l i a H Hi. destruct (has_at _ _ _ _ _ _ _ H Hi) as (v & -> & Hp). exact Hp. Qed.
Lemma has_gf_at : forall d k l i a, has (seq_of as_flt) d k l -> nth_error l i = Some a -> gf (at_ (ix d k) (Z.of_nat i)) a.
Proof. intros d k l i a H Hi. destruct (has_at _ _ _ _ _ _ _ H Hi) as (v & -> & Hp). exact Hp. Qed.
Lemma has_gs_at : forall d k l i a, has (seq_of as_txt) d k l -> nth_error l i = Some a -> gs (at_ (ix d k) (Z.of_nat i)) a.
Proof. intros d k l i a H Hi. destruct (has_at _ _ _ _ _ _ _ H Hi) as (v & -> & Hp). exact Hp. Qed.
Lemma has_len : forall A (P : pyval -> A -> Prop) d k l, has (seq_of P) d k l -> (do v <- ix d k ;; py_len v) = Ok (length l).
Proof.
  intros A P d k l H. apply has_get in H as (v & -> & vs & Hs & H2). cbn [rbind]. unfold py_len. rewrite Hs. cbn [rbind].
  rewrite (Forall2_len _ _ _ _ _ H2). reflexivity.
Qed.

(** Entries after filling in defaults. *)
Lemma has_opt : forall A (P : pyval -> A -> Prop) d defs k a, has P d k a -> has P (opt_fields d defs) k a.
Proof. intros A P d defs k a (v & H & Hp). exists v. split; [|assumption]. rewrite opt_fields_get, H. reflexivity. Qed.
Lemma has_opt_or : forall A (P : pyval -> A -> Prop) d defs k a dflt v, has_or P d k a dflt ->
  dget defs (KS k) = Some v -> P v dflt -> has P (opt_fields d defs) k a.
Proof.
  intros A P d defs k a dflt v [H|[H ->]] Hd Hp; [apply has_opt; assumption|].
  exists v. split; [|assumption]. rewrite opt_fields_get, H. assumption.
Qed.
Lemma seq_of_repeat : forall A (P : pyval -> A -> Prop) v a n, P v a -> Forall2 P (repeat v n) (repeat a n).
Proof. intros A P v a n H. induction n; cbn; constructor; auto. Qed.
Lemma zeros_int : forall n, seq_of as_int (zeros n) (repeat 0%Z n).
Proof. intro n. exists (repeat (VInt 0) n). split; [reflexivity|]. apply seq_of_repeat. reflexivity. Qed.
Lemma zeros_num : forall n, seq_of as_num (zeros n) (repeat 0%Z n).
Proof. intro n. exists (repeat (VInt 0) n). split; [reflexivity|]. apply seq_of_repeat. reflexivity. Qed.

Lemma as_num_VInt : forall z, (Z.abs z < 2 ^ 53)%Z -> as_num (VInt z) z.
Proof. intros z H. apply py_float_of_int_ok. assumption. Qed.
Lemma as_num_VFloat : forall z, as_num (VFloat (float_of_Z z)) z.
Proof. reflexivity. Qed.
Lemma as_int_VFloat : forall z, (Z.abs z < 2 ^ 53)%Z -> as_int (VFloat (float_of_Z z)) z.
Proof. intros z H. apply py_int_of_float_exact. assumption. Qed.
Lemma as_intc_int : forall v z, as_int v z -> as_intc v z.
Proof. intros v z H. destruct v; try exact H. discriminate. Qed.
Lemma int_arg_gi : forall r v z, r = Ok v -> as_intc v z -> gi (int_arg r) z.
Proof. intros r v z -> H. unfold gi, int_arg. cbn [rbind]. unfold as_intc in H. rewrite H. reflexivity. Qed.

Lemma Forall2_map2 : forall A B C D (P : C -> D -> Prop) (f : A -> C) (g : B -> D) a b,
  Forall2 (fun x y => P (f x) (g y)) a b -> Forall2 P (map f a) (map g b).
Proof. intros A B C D P f g a b H. induction H; cbn; constructor; auto. Qed.
Lemma Forall2_same : forall A B C (P : B -> C -> Prop) (f : A -> B) (g : A -> C) l,
  Forall (fun x => P (f x) (g x)) l -> Forall2 P (map f l) (map g l).
Proof. intros A B C P f g l H. induction H; cbn; constructor; auto. Qed.

(** An integer of at most [k] characters. *)
Definition fits (k : nat) (z : Z) : Prop := (- 10 ^ (Z.of_nat k - 1) < z < 10 ^ Z.of_nat k)%Z.
Lemma fits_le : forall k z, 1 <= k -> fits k z -> length (dec_Z z) <= k.
Proof. intros k z Hk H. apply dec_Z_length; assumption. Qed.
Lemma fits_lt : forall k w z, 1 <= k -> k < w -> fits k z -> length (dec_Z z) < w.
Proof. intros k w z Hk Hw H. apply (fits_le k z Hk) in H. lia. Qed.
Lemma fits_53 : forall k z, k <= 15 -> fits k z -> (Z.abs z < 2 ^ 53)%Z.
Proof.
  intros k z Hk H. unfold fits in H. assert (10 ^ Z.of_nat k <= 10 ^ 15)%Z by (apply Z.pow_le_mono_r; lia).
  assert (10 ^ (Z.of_nat k - 1) <= 10 ^ 15)%Z by (apply Z.pow_le_mono_r; lia). lia.
Qed.

(* ------------------------------------------------------------------ *)
(** ** Rows *)

Lemma nth_rows : forall A (P : nat -> A -> Prop) rows, (forall i a, nth_error rows i = Some a -> P i a) ->
  Forall2 P (seq 0 (length rows)) rows.
Proof.
  intros A P rows H. assert (G : forall k, (forall i a, nth_error rows i = Some a -> P (k + i) a) -> Forall2 P (seq k (length rows)) rows).
  { clear H. induction rows as [|a rows IH]; intros k H; cbn [length seq]; [constructor|]. constructor.
    - rewrite <- (Nat.add_0_r k). apply H. reflexivity.
    - apply IH. intros i b Hi. replace (S k + i) with (k + S i) by lia. apply H. assumption. }
  apply (G 0). assumption.
Qed.
Lemma unlines_flat : forall A (f : A -> list str) l, unlines (flat_map f l) = concat (map (fun a => unlines (f a)) l).
Proof. intros A f l. induction l as [|a l IH]; [reflexivity|]. cbn [flat_map map concat]. rewrite unlines_app, IH. reflexivity. Qed.
Lemma writes_rows : forall A (f : Z -> list item) (lines : A -> list str) rows,
  (forall i a, nth_error rows i = Some a -> writes (f (Z.of_nat i)) (unlines (lines a))) ->
  writes (flat_map f (map Z.of_nat (seq 0 (length rows)))) (unlines (flat_map lines rows)).
Proof.
  intros A f lines rows H. rewrite unlines_flat. apply writes_flat_map2 with (g := fun a => unlines (lines a)).
  apply nth_rows in H. revert H. generalize (seq 0 (length rows)). intros l H. induction H; cbn [map]; constructor; auto.
Qed.
Lemma flat_map_flat : forall A B C (f : B -> list C) (g : A -> list B) (h : A -> list C) l,
  (forall a, In a l -> flat_map f (g a) = h a) -> flat_map f (flat_map g l) = flat_map h l.
Proof.
  intros A B C f g h l H. induction l as [|a l IH]; [reflexivity|].
  change (flat_map g (a :: l)) with (g a ++ flat_map g l). rewrite flat_map_app. change (flat_map h (a :: l)) with (h a ++ flat_map h l).
  rewrite IH by (intros; apply H; right; assumption). rewrite H by (left; reflexivity). reflexivity.
Qed.
Lemma Forall_fm : forall A B (P : B -> Prop) (f : A -> list B) l, Forall (fun a => Forall P (f a)) l -> Forall P (flat_map f l).
Proof. intros A B P f l H. induction H; cbn [flat_map]; [constructor|]. apply Forall_app. auto. Qed.
Lemma map_flat : forall A B (f : A -> B) l, map f l = flat_map (fun a => [f a]) l.
Proof. intros A B f l. induction l as [|a l IH]; cbn; congruence. Qed.
Lemma unlines_one : forall l, unlines [l] = l ++ [LF].
Proof. intro l. unfold unlines. cbn. apply app_nil_r. Qed.

(** Columns of a table of rows of constant length. *)
Lemma every_table : forall A B (cells : A -> list B) (k step : nat) (g : A -> B) rows, k < step ->
  (forall a, In a rows -> length (cells a) = step /\ nth_error (cells a) k = Some (g a)) ->
  every k step (flat_map cells rows) = map g rows.
Proof.
  intros A B cells k step g rows Hk H. rewrite flat_map_concat_map.
  destruct rows as [|a0 rows0]; [cbn; unfold every; destruct k; reflexivity|].
  set (rows := a0 :: rows0) in *.
  assert (d0 : B). { destruct (H a0 (or_introl eq_refl)) as [_ Hn]. exact (g a0). }
  rewrite (every_rows B step k (map cells rows) (fun r => nth k r d0)).
  - rewrite map_map. apply map_ext_in. intros a Ha. destruct (H a Ha) as [_ Hn]. apply nth_error_nth. assumption.
  - assumption.
  - intros r Hr. apply in_map_iff in Hr as (a & <- & Ha). destruct (H a Ha) as [Hl Hn]. split; [assumption|].
    rewrite Hn. f_equal. symmetry. apply nth_error_nth. assumption.
Qed.
Lemma every_table1 : forall A B (cells : A -> list B) (k step : nat) (g : A -> B) rows, k < step ->
  (forall a, length (cells a) = step /\ nth_error (cells a) k = Some (g a)) ->
  every k step (flat_map cells rows) = map g rows.
Proof. intros. apply every_table; auto. Qed.

(* ------------------------------------------------------------------ *)
(** ** A set stored as text *)

Record text_set (c : clock) (m : wmode) (fd ho : bool) (d : dict) (ty : Z) (l0 : str) (ls : list str) (out : dict) : Prop := {
  ts_writes : writes (set_items c m fd d) (TLINE ++ unlines (l0 :: ls) ++ TLINE);
  ts_ok : Forall okline (l0 :: ls);
  ts_type : type_line ty l0 = true;
  ts_reads : forall block, utf8_enc (unlines (TAG :: l0 :: ls)) = Some block -> utf8_decode block = unlines (TAG :: l0 :: ls) -> extract_set ty block ho = Ok out }.

(** The set is written as a block of its type from which [out] is read. *)
Definition faithful (c : clock) (m : wmode) (fd ho : bool) (d : dict) (ty : Z) (out : dict) : Prop :=
  exists b, stored c m fd d b /\ reads b ho out /\ type_in (b_body b) = ty.

Lemma text_set_block : forall c m fd ho d ty l0 ls out, text_set c m fd ho d ty l0 ls out ->
  exists b, stored c m fd d b /\ reads b ho out /\ type_in (b_body b) = ty /\ b_open b = TLINE /\ b_close b = TLINE /\
    utf8_enc (unlines (l0 :: ls)) = Some (b_body b).
Proof.
  intros c m fd ho d ty l0 ls out [Hw Hok Hty Hr].
  destruct (text_block_ok ty l0 ls Hok Hty) as (body & Hb & He & Hf & Ht & Hd).
  exists (text_block body). split.
  - split; [assumption|]. intro start. eapply writes_run; eauto.
  - split; [|auto]. unfold reads. cbn [b_body text_block] in *. rewrite Ht. apply Hr; [|assumption]. cbn [b_open].
    change (unlines (TAG :: l0 :: ls)) with (TLINE ++ unlines (l0 :: ls)). rewrite utf8_enc_app, TLINE_enc, Hb. reflexivity.
Qed.
Lemma text_set_faithful : forall c m fd ho d ty l0 ls out, text_set c m fd ho d ty l0 ls out -> faithful c m fd ho d ty out.
Proof. intros c m fd ho d ty l0 ls out H. apply text_set_block in H as (b & H1 & H2 & H3 & _). exists b. auto. Qed.
Lemma faithful_round_trips : forall c m fd ho d ty out, faithful c m fd ho d ty out -> round_trips c m fd ho d out.
Proof. intros c m fd ho d ty out (b & H1 & H2 & _). eapply stored_round_trips; eauto. Qed.
Lemma text_set_round : forall c m fd ho d ty l0 ls out, text_set c m fd ho d ty l0 ls out -> round_trips c m fd ho d out.
Proof. intros. eapply faithful_round_trips, text_set_faithful; eassumption. Qed.

(** The same text for two dictionaries: the same bytes in the file. *)
Definition same_bytes (c : clock) (m : wmode) (fd : bool) (d e : dict) : Prop :=
  exists new, forall start, run_items start (set_items c m fd d) = (start ++ new, None) /\
                            run_items start (set_items c m fd e) = (start ++ new, None).
Lemma text_set_same : forall c m fd ho ho' d e ty ty' l0 ls out out',
  text_set c m fd ho d ty l0 ls out -> text_set c m fd ho' e ty' l0 ls out' -> same_bytes c m fd d e.
Proof.
  intros c m fd ho ho' d e ty ty' l0 ls out out' H1 H2.
  apply text_set_block in H1 as (b & (_ & S1) & _ & _ & O1 & C1 & E1).
  apply text_set_block in H2 as (b' & (_ & S2) & _ & _ & O2 & C2 & E2).
  exists (block_bytes b). intro start. split; [apply S1|]. rewrite S2. unfold block_bytes.
  assert (Eb : b_body b' = b_body b) by congruence. rewrite O1, C1, O2, C2, Eb. reflexivity.
Qed.

(** The usual first line. *)
Lemma type_hdr_ok : forall n, (0 <= n < 100000)%Z -> type_line n (type_hdr n) = true /\ okline (type_hdr n).
Proof.
  intros n Hn. assert (Hlen : length (dec_Z n) <= 6) by (apply dec_Z_length; lia).
  assert (Hp : plain (type_hdr n)). { apply plain_app; apply plain_rjust; [apply plain_dec|apply plain_ascii; reflexivity]. }
  split.
  - unfold type_line. apply andb_true_iff. split.
    + unfold type_hdr. rewrite forallb_app. apply andb_true_iff. split; [|vm_compute; reflexivity].
      unfold rjust. rewrite forallb_app. rewrite forallb_repeat by reflexivity. cbn [andb].
      eapply forallb_impl; [|apply dec_Z_numch]. intros c Hc. unfold numch in Hc. apply orb_true_iff in Hc as [Hc|Hc].
      * unfold is_digit in Hc. apply andb_true_iff in Hc as [H1 H2]. apply N.leb_le in H1. apply N.leb_le in H2.
        unfold is_lb_bytes. rewrite (proj2 (N.ltb_lt c 128)) by lia. rewrite !(proj2 (N.eqb_neq c _)) by (cbn; lia). reflexivity.
      * apply N.eqb_eq in Hc. subst. reflexivity.
    + unfold type_hdr. rewrite firstn_app_exact by (apply rjust_length; assumption).
      assert (E : py_int_bytes (rjust 6 (dec_Z n)) = Ok n).
      { unfold py_int_bytes. unfold rjust. rewrite strip_by_pre by (apply forallb_repeat; reflexivity).
        rewrite strip_by_nonws. { rewrite int_core_dec. reflexivity. }
        eapply forallb_impl; [|apply dec_Z_numch]. intros c Hc. unfold numch in Hc. apply orb_true_iff in Hc as [Hc|Hc].
        - unfold is_digit in Hc. apply andb_true_iff in Hc as [H1 H2]. apply N.leb_le in H1. apply N.leb_le in H2.
          unfold is_ws_bytes. rewrite (proj2 (N.leb_gt c 13)) by lia. rewrite (proj2 (N.eqb_neq c 32)) by lia.
          rewrite andb_false_r. reflexivity.
        - apply N.eqb_eq in Hc. subst. reflexivity. }
      rewrite E. apply Z.eqb_refl.
  - destruct Hp as [H1 H2]. split; [assumption|]. split; [|assumption].
    unfold type_hdr. change (rjust 74 (lit " ")) with (repeat blank 74). apply tags_no_tag.
    + apply no_lb_str_bytes. apply plain_rjust, plain_dec.
    + destruct (containsb TAG (rjust 6 (dec_Z n))) eqn:E; [|reflexivity]. exfalso.
      apply containsb_iff in E as (a & b & E). assert (El := f_equal (@length N) E). rewrite !app_length in El.
      rewrite rjust_length in El by assumption. change (length TAG) with 6 in El.
      assert (a = []) by (destruct a; [reflexivity|cbn in El; lia]). assert (b = []) by (destruct b; [reflexivity|cbn in El; lia]).
      subst. rewrite app_nil_r in E. cbn [app] in E. assert (n = (-1)%Z); [|lia].
      apply dec_Z_inj. apply (ends_tag_rjust [] 6); [apply dec_Z_nonws|lia|]. exists []. exact E.
Qed.

(** Lines of the block as the extractors split it. *)
Lemma okline_nolb : forall ls, Forall okline ls -> forallb (no_lb is_lb_str) ls = true.
Proof. intros ls H. induction H as [|l ls (Hl & _) _ IH]; [reflexivity|]. cbn. rewrite Hl. assumption. Qed.
Lemma split_text : forall ls keep, Forall okline ls ->
  splitlines_str keep (unlines (TAG :: ls)) = if keep then @cons str (TAG ++ [LF]) (map (fun l => l ++ [LF]) ls) else @cons str TAG ls.
Proof.
  intros ls keep H. unfold splitlines_str. rewrite splitlines_unlines.
  - destruct keep; reflexivity.
  - reflexivity.
  - cbn [forallb]. rewrite okline_nolb by assumption. reflexivity.
Qed.

(** Characters of numbers that the extractors replace. *)
Lemma fltch_neq : forall c x, fltch c = true -> fltch x = false -> (c =? x)%N = false.
Proof. intros c x H1 H2. destruct (N.eqb_spec c x) as [->|]; congruence. Qed.
Lemma replace1_id : forall a b s, fltch a = false -> forallb fltch s = true -> replace1 a b s = s.
Proof.
  intros a b s Ha H. unfold replace1. induction s as [|c s IH]; [reflexivity|]. cbn [forallb map] in *.
  apply andb_true_iff in H as [Hc H]. rewrite (fltch_neq c a) by assumption. rewrite IH by assumption. reflexivity.
Qed.
Lemma dec_fltch : forall z, forallb fltch (dec_Z z) = true.
Proof.
  intro z. eapply forallb_impl; [|apply dec_Z_numch]. intros c H. unfold numch in H. unfold fltch.
  apply orb_true_iff in H as [H|H]; [rewrite H; reflexivity|]. apply N.eqb_eq in H. subst. reflexivity.
Qed.
Lemma d_to_E_dec : forall z, d_to_E (dec_Z z) = dec_Z z.
Proof. intro z. unfold d_to_E. rewrite (replace1_id 68), replace1_id; auto using dec_fltch. Qed.
Lemma d_to_E_fmt : forall u p f, d_to_E (fmt_e u p f) = fmt_e u p f.
Proof. intros. unfold d_to_E. rewrite (replace1_id 68), replace1_id; auto using fmt_e_chars. Qed.
Lemma d_to_e_fmt : forall u p f, d_to_e (fmt_e u p f) = fmt_e u p f.
Proof. intros. unfold d_to_e. rewrite (replace1_id 100), replace1_id; auto using fmt_e_chars. Qed.

(** Widths of printed reals. *)
Lemma fmt16_lt : forall f, f_valid f = true -> length (fmt_e false 16 f) < 25.
Proof. intros f H. assert (L := fmt_e_length false 16 f ltac:(lia) H). lia. Qed.
Lemma fmt11_lt : forall f, f_valid f = true -> length (fmt_e false 11 f) < 20.
Proof. intros f H. assert (L := fmt_e_length false 11 f ltac:(lia) H). lia. Qed.
Lemma fmt5_le : forall u f, f_valid f = true -> length (fmt_e u 5 f) <= 13.
Proof. intros u f H. assert (L := fmt_e_length u 5 f ltac:(lia) H). lia. Qed.
Lemma fmt7_le : forall u f, f_valid f = true -> length (fmt_e u 7 f) <= 15.
Proof. intros u f H. assert (L := fmt_e_length u 7 f ltac:(lia) H). lia. Qed.

(* ------------------------------------------------------------------ *)
(** ** Values in rows of k *)

Fixpoint take_rows {A} (k n : nat) (l : list A) : list (list A) :=
  match n with O => [] | S n' => firstn k l :: take_rows k n' (skipn k l) end.
Definition rows_of {A} (k : nat) (l : list A) : list (list A) :=
  take_rows k (length l / k) l ++ (if Nat.ltb 0 (length l mod k) then [skipn (k * (length l / k)) l] else []).
Lemma take_rows_spec : forall A k n (l : list A), k * n <= length l ->
  concat (take_rows k n l) = firstn (k * n) l /\ Forall (fun r => length r = k) (take_rows k n l).
Proof.
  intros A k n. induction n as [|n IH]; intros l H.
  - rewrite Nat.mul_0_r. split; [reflexivity|constructor].
  - cbn [take_rows concat]. assert (Hk : k <= length l) by nia. destruct (IH (skipn k l)) as [H1 H2]; [rewrite skipn_length; nia|].
    split.
    + rewrite H1. replace (k * S n) with (k + k * n) by lia.
      rewrite <- (firstn_skipn k l) at 3. rewrite firstn_app, firstn_length. replace (Nat.min k (length l)) with k by lia.
      replace (k + k * n - k) with (k * n) by lia. f_equal. rewrite firstn_firstn. f_equal. lia.
    + constructor; [rewrite firstn_length; lia|assumption].
Qed.
Lemma rows_concat : forall A k (l : list A), 0 < k -> concat (rows_of k l) = l.
Proof.
  intros A k l Hk. unfold rows_of. assert (D := Nat.div_mod (length l) k ltac:(lia)).
  destruct (take_rows_spec A k (length l / k) l) as [H1 _]; [nia|].
  rewrite concat_app, H1. destruct (Nat.ltb_spec 0 (length l mod k)) as [Hm|Hm].
  - cbn [concat]. rewrite app_nil_r. apply firstn_skipn.
  - cbn [concat]. rewrite app_nil_r. apply firstn_short. lia.
Qed.
Lemma rows_len : forall A k (l : list A), 0 < k -> Forall (fun r => 0 < length r <= k) (rows_of k l).
Proof.
  intros A k l Hk. unfold rows_of. assert (D := Nat.div_mod (length l) k ltac:(lia)).
  destruct (take_rows_spec A k (length l / k) l) as [_ H2]; [nia|].
  apply Forall_app. split; [eapply Forall_impl; [|exact H2]; cbn beta; lia|].
  destruct (Nat.ltb_spec 0 (length l mod k)) as [Hm|Hm]; constructor; [|constructor].
  rewrite skipn_length. assert (Hb := Nat.mod_upper_bound (length l) k ltac:(lia)). nia.
Qed.
Lemma rows_In : forall A k (l : list A) r x, 0 < k -> In r (rows_of k l) -> In x r -> In x l.
Proof. intros A k l r x Hk Hr Hx. rewrite <- (rows_concat A k l Hk). apply in_concat. eauto. Qed.
Lemma take_rows_map : forall A B (f : A -> B) k n l, take_rows k n (map f l) = map (map f) (take_rows k n l).
Proof. intros A B f k n. induction n as [|n IH]; intro l; [reflexivity|]. cbn [take_rows map]. rewrite firstn_map, skipn_map, IH. reflexivity. Qed.

(** Fixed width pieces without separators. *)
Lemma chop_segs : forall w segs, Forall (fun s => length s = w) segs -> chop w (length segs) (concat segs) = segs.
Proof.
  intros w segs H. induction H as [|s segs Hs _ IH]; [reflexivity|]. cbn [length chop concat].
  rewrite firstn_app_exact, skipn_app_exact by assumption. rewrite IH. reflexivity.
Qed.
Lemma concat_length_const : forall A w (segs : list (list A)), Forall (fun s => length s = w) segs -> length (concat segs) = length segs * w.
Proof. intros A w segs H. induction H as [|s segs Hs _ IH]; [reflexivity|]. cbn [concat length]. rewrite app_length, IH, Hs. lia. Qed.
Lemma fixed_floats_ok : forall fs, Forall (fun f => f_valid f = true) fs ->
  fixed_floats 13 (concat (map (fun f => rjust 13 (fmt_e false 5 f)) fs)) = Ok (map (rd 5) fs).
Proof.
  intros fs H. unfold fixed_floats. set (segs := map (fun f => rjust 13 (fmt_e false 5 f)) fs).
  assert (Hs : Forall (fun s => length s = 13) segs).
  { unfold segs. rewrite Forall_map. eapply Forall_impl; [|exact H]. intros f Hf. apply rjust_length, fmt5_le. assumption. }
  rewrite (concat_length_const N 13 segs Hs). rewrite Nat.div_mul by lia. rewrite chop_segs by assumption.
  unfold segs, parse_floats, rmap. rewrite map_map. apply rseq_map_ok. intros f _. apply py_float_rjust.
Qed.

(** Rewriting slices up to the names of the element type. *)
Ltac every_is H :=
  let T := type of H in
  match T with
  | @every ?B ?j ?s ?x = ?r =>
      match goal with |- context [@every ?A j s ?y] => change (@every A j s y) with (@every B j s x); rewrite H end
  end.
