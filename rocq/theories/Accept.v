(** Which values the writers take: kinds of values, and the steps of a writer that
    raise no exception.  Used for property C72. *)
From Coq Require Import String List NArith ZArith Bool QArith Lia.
Import ListNotations.
From Verif Require Import PyBase PyNum PyVal Utf8 Tools Facts IntFacts QFacts FloatFacts FloatText DictFacts DsNodes DsHeaders DsGroups Ds55 Ds2414 Uff
  Container Append Utf8Facts Lines Cells PropNumeral.
From Coq Require Import Lia.
Open Scope string_scope.
Open Scope list_scope.
Open Scope nat_scope.

(* ------------------------------------------------------------------ *)
(** ** What is claimed *)

(** Integers from 2^1024 - 2^970 on are nearer to 2^1024 than to a double. *)
Definition real_limit : Z := (2 ^ 1024 - 2 ^ 970)%Z.
(** A character that can be written: no surrogate. *)
Definition writable_char (c : N) : Prop := (c < 55296 \/ 57343 < c < 1114112)%N.
(** Values accepted for [%i], for [%e] and float formats, and for [%s]. *)
Definition integral (v : pyval) : Prop :=
  match v with VInt _ | VBool _ | VFloat (S754_zero _) | VFloat (S754_finite _ _ _) => True | _ => False end.
Definition real (v : pyval) : Prop :=
  match v with VFloat _ | VBool _ => True | VInt z => (Z.abs z < real_limit)%Z | _ => False end.
Definition textual (v : pyval) : Prop :=
  match v with VStr s => Forall writable_char s | VNone | VBool _ | VInt _ => True | _ => False end.
(** The entries of a sequence. *)
Definition entries (v : pyval) : option (list pyval) :=
  match v with
  | VList l | VArr _ l => Some l
  | VArr2 dt rows => Some (map (VArr dt) rows)
  | VStr s => Some (map (fun c => VStr [c]) s)
  | _ => None
  end.
(** Kinds of values.  [Label] is an integer or a text that [int] takes, [Number]
    is real or complex, [Entry j] is a sequence whose entry [j] is real, [Ints] is
    a sequence of integers, [Reals] a sequence of reals, [Table] a sequence of
    those, [Matrix] an array with four rows or more, the first four of three reals. *)
Inductive kind := Int | Real | Text | Label | Number | Entry (j : nat) | Ints | Reals | Table | Matrix.
Definition takes (k : kind) (v : pyval) : Prop :=
  match k with
  | Int => integral v
  | Real => real v
  | Text => textual v
  | Label => integral v \/ exists s z, v = VStr s /\ int_text s z
  | Number => match v with VCplx _ _ => True | _ => real v end
  | Entry j => exists l x, entries v = Some l /\ nth_error l j = Some x /\ real x
  | Ints => exists l, entries v = Some l /\ Forall integral l
  | Reals => exists l, entries v = Some l /\ Forall real l
  | Table => exists l, entries v = Some l /\ Forall (fun r => exists l', entries r = Some l' /\ Forall real l') l
  | Matrix => exists dt rows, v = VArr2 dt rows /\ 4 <= length rows /\ Forall (fun r => length r = 3 /\ Forall real r) (firstn 4 rows)
  end.
(** A field: its name, its kind and whether it may be missing. *)
Inductive need := Must | May.
Definition field_ok (d : dict) (f : string * kind * need) : Prop :=
  match dget d (KS (fst (fst f))) with
  | Some v => takes (snd (fst f)) v
  | None => snd f = May
  end.
(** A column of which the first [n] entries are written. *)
Definition column_ok (d : dict) (n : nat) (f : string * kind * need) : Prop :=
  match dget d (KS (fst (fst f))) with
  | Some v => exists l, entries v = Some l /\ n <= length l /\ Forall (takes (snd (fst f))) (firstn n l)
  | None => snd f = May
  end.
Definition fields (n : need) (k : kind) (l : list string) : list (string * kind * need) := map (fun s => (s, k, n)) l.

(* ------------------------------------------------------------------ *)
(** ** Kinds and formats *)

Lemma scalar_writable : forall c, scalar c <-> writable_char c.
Proof. intro c. unfold scalar, writable_char. lia. Qed.
Lemma scalars_writable : forall s, Forall scalar s <-> Forall writable_char s.
Proof. intro s. split; apply Forall_impl; intro c; apply scalar_writable. Qed.

Open Scope Z_scope.
Lemma big_infinite : forall s n, real_limit <= n -> round64 s n 1 = S754_infinity s.
Proof.
  intros s n Hn. unfold real_limit in Hn.
  assert (E971 : 2 ^ 971 = 2 * 2 ^ 970) by reflexivity. assert (E1024 : 2 ^ 1024 = 2 ^ 53 * 2 ^ 971) by reflexivity. assert (P : 0 < 2 ^ 970) by reflexivity.
  assert (E1023 : 2 ^ 1023 = 2 ^ 52 * 2 ^ 971) by reflexivity.
  assert (H0 : 0 < n) by nia. unfold round64. destruct (Z.eqb_spec n 0); [lia|].
  destruct (flog_spec 2 n 1 ltac:(lia) H0 ltac:(lia)) as [F1 F2]. set (k := flog 2 n 1) in *.
  assert (V : (qv n 1 == inject_Z n)%Q) by (unfold qv; change (inject_Z 1) with 1%Q; field). rewrite V in F1, F2. clear V.
  assert (Hk : 1023 <= k).
  { destruct (Z.le_gt_cases 1023 k); [assumption|]. exfalso. assert (B : (bpow 2 (k + 1) <= bpow 2 1023)%Q) by (apply bpow_le; lia). rewrite (bpow_Z 2 1023) in B by lia.
    assert (B2 : (inject_Z n < inject_Z (2 ^ 1023))%Q) by (eapply Qlt_le_trans; [exact F2|exact B]). rewrite <- Zlt_Qlt in B2. rewrite E1023 in B2. rewrite E1024, E971 in Hn.
    rewrite E971 in B2. change (2 ^ 53) with (2 * 2 ^ 52) in Hn. assert (0 < 2 ^ 52) by reflexivity. nia. }
  rewrite bpow_Z in F1, F2 by lia. rewrite <- Zle_Qle in F1. rewrite <- Zlt_Qlt in F2.
  unfold emin. rewrite Z.max_l by lia. unfold scale. destruct (Z.leb_spec 0 (k - 52)); [|lia].
  destruct (Z.eq_dec k 1023) as [Ek|Nk].
  - rewrite Ek. change (1023 - 52) with 971. rewrite Z.mul_1_l. assert (Hu : n < 2 ^ 1024) by (rewrite Ek in F2; exact F2).
    assert (R : rne n (2 ^ 971) = 2 ^ 53).
    { unfold rne. assert (Hd : n / 2 ^ 971 = 2 ^ 53 - 1).
      { symmetry. apply (Z.div_unique n (2 ^ 971) (2 ^ 53 - 1) (n - (2 ^ 53 - 1) * 2 ^ 971)); [left|ring]. rewrite E1024 in *. rewrite E971 in *. nia. }
      assert (Hm : n mod 2 ^ 971 = n - (2 ^ 53 - 1) * 2 ^ 971) by (rewrite Z.mod_eq by (rewrite E971; lia); rewrite Hd; ring).
      rewrite Hd, Hm. destruct (Z.compare_spec (2 * (n - (2 ^ 53 - 1) * 2 ^ 971)) (2 ^ 971)) as [C|C|C].
      - reflexivity.
      - exfalso. rewrite E1024 in Hn. rewrite E971 in *. nia.
      - reflexivity. }
    rewrite R. reflexivity.
  - destruct (rne n (1 * 2 ^ (k - 52)) =? 2 ^ 53).
    + destruct (Z.ltb_spec 971 (k - 52 + 1)); [reflexivity|lia].
    + destruct (Z.ltb_spec 971 (k - 52)); [reflexivity|lia].
Qed.
Lemma int_real : forall z, (exists f, py_float_of_int z = Ok f) <-> Z.abs z < real_limit.
Proof.
  intro z. unfold py_float_of_int, float_of_Z. split.
  - intros [f H]. destruct (Z.lt_ge_cases (Z.abs z) real_limit) as [L|G]; [exact L|]. rewrite (big_infinite _ _ G) in H. discriminate.
  - intro H. destruct (Z.eq_dec (Z.abs z) 0) as [E|N]; [rewrite E; eexists; reflexivity|].
    assert (F : f_finite (round64 (z <? 0) (Z.abs z) 1) = true).
    { apply round64_err; [lia|lia|]. assert (V : (qv (Z.abs z) 1 == inject_Z (Z.abs z))%Q) by (unfold qv; change (inject_Z 1) with 1%Q; field). rewrite V.
      assert (L : (inject_Z (Z.abs z) < inject_Z real_limit)%Q) by (rewrite <- Zlt_Qlt; exact H). eapply Qlt_le_trans; [exact L|].
      apply Qle_lteq. right. vm_compute. reflexivity. }
    destruct (round64 (z <? 0) (Z.abs z) 1); [eauto|discriminate F|discriminate F|eauto].
Qed.

Open Scope nat_scope.

Definition admits (sp : fspec) (v : pyval) : Prop :=
  match sp with FLit _ => True | FInt _ => integral v | FStr _ _ => textual v | FExp _ _ => real v end.
Definition kind_of (sp : fspec) : kind := match sp with FInt _ => Int | FStr _ _ => Text | _ => Real end.
Definition good (k : kind) (r : result pyval) : Prop := exists v, r = Ok v /\ takes k v.
Fixpoint fits (l : list fspec) (args : list (result pyval)) : Prop :=
  match l, args with
  | [], [] => True
  | FLit c :: r, _ => scalar c /\ fits r args
  | sp :: r, a :: args' => good (kind_of sp) a /\ fits r args'
  | _, _ => False
  end.

Lemma integral_iff : forall v, (exists z, fmt_int_arg v = Ok z) <-> integral v.
Proof.
  destruct v; cbn [fmt_int_arg to_int integral]; try (split; [intros [z H]; discriminate H|intros []]; fail).
  - split; [trivial|eauto].
  - split; [trivial|eauto].
  - destruct f; unfold py_int_of_float; try (split; [intros [z H]; discriminate H|intros []]; fail); (split; [intros _; exact Logic.I|intros _; try destruct (frac_of m e); eexists; reflexivity]).
Qed.
Lemma label_iff : forall v, (exists z, to_int v = Ok z) <-> takes Label v.
Proof.
  intro v. cbn [takes]. rewrite <- integral_iff. destruct v; cbn [fmt_int_arg];
    try (split; [intros [z' H]; left; eauto|intros [[z' H]|(s' & z' & E & _)]; [eauto|discriminate E]]; fail).
  split.
  - intros [z H]. right. exists s, z. split; [reflexivity|]. apply C71_int. exact H.
  - intros [[z H]|(s' & z & E & H)]; [discriminate|]. injection E as <-. exists z. apply C71_int. exact H.
Qed.
Lemma real_iff : forall v, (exists f, fmt_float_arg v = Ok f) <-> real v.
Proof.
  destruct v; cbn [fmt_float_arg real]; try (split; [intros [x H]; discriminate H|intros []]; fail).
  - split; [trivial|]. intros _. destruct b; eexists; reflexivity.
  - apply int_real.
  - split; [trivial|eauto].
Qed.
Lemma real_iff2 : forall v, (exists f, fstr_arg v = Ok f) <-> real v.
Proof. intro v. rewrite <- real_iff. destruct v; cbn [fstr_arg fmt_float_arg]; try reflexivity. split; intros [x H]; discriminate. Qed.
Lemma numch_scalar : forall s, forallb numch s = true -> Forall scalar s.
Proof.
  intros s H. apply Forall_forall. rewrite forallb_forall in H. intros c Hc. apply scalar_ascii. specialize (H c Hc). unfold numch, is_digit in H. 
  rewrite !orb_true_iff, ?andb_true_iff, ?N.leb_le, ?N.eqb_eq in H. lia.
Qed.
Lemma fltch_scalar : forall s, forallb fltch s = true -> Forall scalar s.
Proof.
  intros s H. apply Forall_forall. rewrite forallb_forall in H. intros c Hc. apply scalar_ascii. specialize (H c Hc). unfold fltch in H.
  apply orb_true_iff in H as [H|H]; [unfold is_digit in H; rewrite andb_true_iff, !N.leb_le in H; lia|].
  apply existsb_exists in H as (x & Hx & E). apply N.eqb_eq in E. subst x. cbn [In] in Hx. lia.
Qed.
Lemma blanks_scalar : forall n, Forall scalar (repeat blank n).
Proof. intro n. apply Forall_forall. intros c H. apply repeat_spec in H. subst. apply scalar_ascii. reflexivity. Qed.
Lemma rjust_scalar : forall w s, Forall scalar (rjust w s) <-> Forall scalar s.
Proof. intros w s. unfold rjust. rewrite Forall_app. split; [tauto|]. intro. split; [apply blanks_scalar|assumption]. Qed.
Lemma ljust_scalar : forall w s, Forall scalar (ljust w s) <-> Forall scalar s.
Proof. intros w s. unfold ljust. rewrite Forall_app. split; [tauto|]. intro. split; [assumption|apply blanks_scalar]. Qed.
Lemma lit_scalar : forall s, Forall scalar (lit s).
Proof.
  induction s as [|a s IH]; [constructor|]. cbn [lit]. constructor; [|exact IH]. left. destruct a as [[] [] [] [] [] [] [] []]; reflexivity.
Qed.
Lemma textual_iff : forall v, (exists s, to_str v = Ok s /\ Forall scalar s) <-> textual v.
Proof.
  destruct v; cbn [to_str textual]; try (split; [intros (x & H & _); discriminate H|intros []]; fail).
  - split; [trivial|]. intros _. eexists. split; [reflexivity|]. apply lit_scalar.
  - split; [trivial|]. intros _. eexists. split; [reflexivity|]. destruct b; apply lit_scalar.
  - split; [trivial|]. intros _. eexists. split; [reflexivity|]. apply numch_scalar, dec_Z_numch.
  - rewrite <- scalars_writable. split; [intros (x & H & Hx); congruence|eauto].
Qed.

Lemma fits_iff : forall l args, (exists vs s, rseq args = Ok vs /\ fmt_specs l vs = Ok s /\ Forall scalar s) <-> fits l args.
Proof.
  induction l as [|sp l IH]; intro args.
  - split.
    + intros (vs & s & H1 & H2 & _). destruct vs; [|discriminate]. destruct args as [|a args]; [exact Logic.I|]. cbn [rseq] in H1. destruct a; [|discriminate]. cbn [rbind] in H1. destruct (rseq args); discriminate.
    + destruct args; [|intros []]. intros _. exists [], []. repeat split. constructor.
  - destruct sp as [c|w|lf w|w p].
    { cbn [fits fmt_specs]. rewrite <- IH. split.
      - intros (vs & s & H1 & H2 & H3). destruct (fmt_specs l vs) as [t|] eqn:E; [|discriminate]. cbn [rbind] in H2. injection H2 as <-. inversion H3; subst. split; [assumption|]. exists vs, t. auto.
      - intros (Hc & vs & s & H1 & H2 & H3). exists vs, (c :: s). rewrite H2. split; [exact H1|]. split; [reflexivity|]. constructor; assumption. }
    all: cbn [fits]; destruct args as [|a args];
      [split; [intros (vs & s & H1 & H2 & _); cbn [rseq] in H1; injection H1 as <-; discriminate|intros []]|].
    all: cbn [kind_of]; split;
      [intros (vs & s & H1 & H2 & H3); cbn [rseq] in H1; destruct a as [v|]; [|discriminate]; cbn [rbind] in H1; destruct (rseq args) as [vs'|] eqn:Ea; [|discriminate];
       cbn [rbind] in H1; injection H1 as <-; cbn [fmt_specs] in H2
      |intros ((v & -> & Hv) & H); apply IH in H as (vs & s & H1 & H2 & H3); cbn [rseq rbind]; rewrite H1; cbn [rbind]; cbn [takes] in Hv].
    + destruct (fmt_int_arg v) as [z|] eqn:Ez; [|discriminate]. cbn [rbind] in H2. destruct (fmt_specs l vs') as [t|] eqn:Et; [|discriminate]. cbn [rbind] in H2. injection H2 as <-.
      apply Forall_app in H3 as [H3 H4]. split; [exists v; split; [reflexivity|apply integral_iff; eauto]|]. apply IH. exists vs', t. auto.
    + apply integral_iff in Hv as [z Hz]. eexists _, _. split; [reflexivity|]. cbn [fmt_specs]. rewrite Hz. cbn [rbind]. rewrite H2. cbn [rbind]. split; [reflexivity|].
      apply Forall_app. split; [apply rjust_scalar, numch_scalar, dec_Z_numch|exact H3].
    + destruct (to_str v) as [z|] eqn:Ez; [|destruct lf; discriminate]. destruct (fmt_specs l vs') as [t|] eqn:Et; [|destruct lf; discriminate].
      assert (H2' : (if lf then ljust w z else rjust w z) ++ t = s) by (destruct lf; cbn [rbind] in H2; congruence). subst s.
      apply Forall_app in H3 as [H3 H4]. split; [exists v; split; [reflexivity|apply textual_iff; exists z; split; [exact Ez|]]|].
      * destruct lf; [apply ljust_scalar in H3|apply rjust_scalar in H3]; exact H3.
      * apply IH. exists vs', t. auto.
    + apply textual_iff in Hv as (z & Hz & Hs). exists (v :: vs), ((if lf then ljust w z else rjust w z) ++ s). split; [reflexivity|]. cbn [fmt_specs]. rewrite Hz, H2. split; [destruct lf; reflexivity|].
      apply Forall_app. split; [destruct lf; [apply ljust_scalar|apply rjust_scalar]; exact Hs|exact H3].
    + destruct (fmt_float_arg v) as [z|] eqn:Ez; [|discriminate]. cbn [rbind] in H2. destruct (fmt_specs l vs') as [t|] eqn:Et; [|discriminate]. cbn [rbind] in H2. injection H2 as <-.
      apply Forall_app in H3 as [H3 H4]. split; [exists v; split; [reflexivity|apply real_iff; eauto]|]. apply IH. exists vs', t. auto.
    + apply real_iff in Hv as [z Hz]. eexists _, _. split; [reflexivity|]. cbn [fmt_specs]. rewrite Hz. cbn [rbind]. rewrite H2. cbn [rbind]. split; [reflexivity|].
      apply Forall_app. split; [apply rjust_scalar, fltch_scalar, fmt_e_chars|exact H3].
Qed.

(* ------------------------------------------------------------------ *)
(** ** Steps *)

Definition ok_item (it : item) : Prop := match it with WTxt r => exists s, r = Ok s /\ Forall scalar s | _ => True end.
Lemma scalars_dec : forall s, Forall scalar s \/ ~ Forall scalar s.
Proof.
  induction s as [|c s IH]; [left; constructor|]. assert (D : scalar c \/ ~ scalar c) by (unfold scalar; lia).
  destruct D as [D|D], IH as [IH|IH]; [left; constructor; assumption|right; intro F; inversion F; contradiction..].
Qed.
Lemma run_ok : forall l f, snd (run_items f l) = None <-> Forall ok_item l.
Proof.
  induction l as [|it l IH]; intro f; [split; [constructor|reflexivity]|]. rewrite Forall_cons_iff. destruct it as [[s|e]|b|]; cbn [run_items ok_item].
  - destruct (utf8_encode s) as [b|e] eqn:E.
    + rewrite IH. split; [intro H; split; [|exact H]|tauto]. exists s. split; [reflexivity|].
      unfold utf8_encode in E. destruct (utf8_enc s) eqn:E2; [|discriminate]. destruct (scalars_dec s) as [F|F]; [exact F|]. apply utf8_enc_none in F. congruence.
    + cbn [snd]. split; [discriminate|]. intros [(s' & Es & Hs) _]. injection Es as <-. destruct (utf8_enc_some _ Hs) as [b Hb]. unfold utf8_encode in E. rewrite Hb in E. discriminate.
  - cbn [snd]. split; [discriminate|]. intros [(s & Es & _) _]. discriminate.
  - rewrite IH. tauto.
  - rewrite IH. tauto.
Qed.
Lemma ok_txt : forall f args, ok_item (txt f args) <-> fits (parse_fmt SNorm f) args.
Proof.
  intros f args. rewrite <- fits_iff. unfold txt, pct. cbn [ok_item]. split.
  - intros (s & H & Hs). destruct (rseq args) as [vs|]; [|discriminate]. eauto.
  - intros (vs & s & H1 & H2 & H3). rewrite H1. cbn [rbind]. eauto.
Qed.
Lemma ok_hdr : forall n, ok_item (hdr_lines n) <-> True.
Proof.
  intro n. split; [trivial|]. intros _. unfold hdr_lines. apply ok_txt. cbn. unfold scalar. repeat split; try (eexists; split; [reflexivity|]; cbn; trivial); try (left; reflexivity).
  repeat constructor.
Qed.
Lemma ok_end : ok_item end_line <-> True.
Proof. split; [trivial|]. intros _. apply ok_txt. cbn. unfold scalar. repeat split; try (eexists; split; [reflexivity|]; cbn; trivial); left; reflexivity. Qed.
Lemma accepted : forall c m fd file u d ty, dget d (KS "type") = Some ty -> dget d (KS "data") = None ->
  (w_exc (write_set c m fd file u d) = None <-> Forall ok_item (wp_items (write_dispatch c m fd ty d))).
Proof.
  intros c m fd file u d ty Ht Hd. unfold write_set. rewrite Ht, Hd. 
  rewrite <- (run_ok _ (match m, file with Add, Some b => b | _, _ => [] end)).
  destruct (run_items _ (wp_items (write_dispatch c m fd ty d))) as [b [e|]]; cbn [snd w_exc]; [split; discriminate|].
  rewrite refresh_some. cbn [w_exc]. tauto.
Qed.
Lemma good_ix : forall k d n, good k (ix d n) <-> field_ok d (n, k, Must).
Proof.
  intros k d n. unfold good, field_ok, ix. cbn [fst snd]. destruct (dget d (KS n)) as [v|]; cbn [of_option].
  - split; [intros (x & E & H); congruence|eauto].
  - split; [intros (x & E & H); discriminate|discriminate].
Qed.
Lemma good_must : forall k d defs n, dget defs (KS n) = None -> (good k (ix (opt_fields d defs) n) <-> field_ok d (n, k, Must)).
Proof. intros k d defs n H. rewrite good_ix. unfold field_ok. cbn [fst snd]. rewrite opt_fields_get, H. destruct (dget d (KS n)); reflexivity. Qed.
Lemma good_may : forall k d defs n v, dget defs (KS n) = Some v -> takes k v -> (good k (ix (opt_fields d defs) n) <-> field_ok d (n, k, May)).
Proof.
  intros k d defs n v H Hv. rewrite good_ix. unfold field_ok. cbn [fst snd]. rewrite opt_fields_get, H. destruct (dget d (KS n)); [reflexivity|]. tauto.
Qed.
Lemma good_ok : forall k v, good k (Ok v) <-> takes k v.
Proof. intros k v. unfold good. split; [intros (x & E & H); congruence|eauto]. Qed.

Lemma lits_writable : forall s, Forall writable_char (lit s).
Proof. intro s. apply scalars_writable, lit_scalar. Qed.

(* ------------------------------------------------------------------ *)
(** ** Lines described by their sources *)

(** Where an argument comes from: a field, a constant, the entry [i] of a column
    (as it is, through [int], an entry of it, its real or imaginary part). *)
Inductive src :=
| SField (n : string)
| SConst (v : pyval)
| SCol (n : string)
| SLab (n : string)
| SEnt (n : string) (j : nat)
| SRe (n : string)
| SIm (n : string).
Definition ev (d : dict) (i : nat) (s : src) : result pyval :=
  match s with
  | SField n => ix d n
  | SConst v => Ok v
  | SCol n => at_ (ix d n) (Z.of_nat i)
  | SLab n => int_arg (at_ (ix d n) (Z.of_nat i))
  | SEnt n j => at_ (at_ (ix d n) (Z.of_nat i)) (Z.of_nat j)
  | SRe n => real_of (at_ (ix d n) (Z.of_nat i))
  | SIm n => imag_of (at_ (ix d n) (Z.of_nat i))
  end.
Definition holds (d : dict) (i : nat) (a : kind * src) : Prop := good (fst a) (ev d i (snd a)).
Definition line (d : dict) (i : nat) (l : string * list src) : item := txt (fst l) (map (ev d i) (snd l)).
Fixpoint line_atoms (l : list fspec) (args : list src) : option (list (kind * src)) :=
  match l, args with
  | [], [] => Some []
  | FLit c :: r, _ => if (c <? 128)%N then line_atoms r args else None
  | sp :: r, a :: args' => option_map (cons (kind_of sp, a)) (line_atoms r args')
  | _, _ => None
  end.
Lemma line_atoms_iff : forall d i l args ats, line_atoms l args = Some ats -> (fits l (map (ev d i) args) <-> Forall (holds d i) ats).
Proof.
  intros d i. induction l as [|sp l IH]; intros args ats H.
  - destruct args; [|discriminate]. injection H as <-. split; [constructor|intros _; exact Logic.I].
  - destruct sp as [c|w|lf w|w p]; cbn [line_atoms] in H.
    { destruct (N.ltb_spec c 128) as [L|]; [|discriminate]. cbn [fits]. rewrite (IH _ _ H). split; [tauto|]. intro X. split; [apply scalar_ascii, L|exact X]. }
    all: destruct args as [|a args]; [discriminate|]; cbn [map fits]; destruct (line_atoms l args) as [r|] eqn:E; [|discriminate]; injection H as <-;
      rewrite (IH _ _ E), Forall_cons_iff; reflexivity.
Qed.
Fixpoint lines_atoms (l : list (string * list src)) : option (list (kind * src)) :=
  match l with
  | [] => Some []
  | x :: r => match line_atoms (parse_fmt SNorm (fst x)) (snd x), lines_atoms r with Some a, Some b => Some (a ++ b) | _, _ => None end
  end.
Lemma lines_iff : forall d i l ats, lines_atoms l = Some ats -> (Forall ok_item (map (line d i) l) <-> Forall (holds d i) ats).
Proof.
  intros d i. induction l as [|x l IH]; intros ats H; cbn [lines_atoms] in H.
  - injection H as <-. split; constructor.
  - destruct (line_atoms _ _) as [a|] eqn:Ea; [|discriminate]. destruct (lines_atoms l) as [b|]; [|discriminate]. injection H as <-.
    cbn [map]. rewrite Forall_cons_iff, Forall_app, (IH _ eq_refl). unfold line at 1. rewrite ok_txt, (line_atoms_iff _ _ _ _ _ Ea). reflexivity.
Qed.

(** *** Scalar fields *)
Definition const_ok (k : kind) (v : pyval) : bool :=
  match k, v with
  | Int, VInt _ => true
  | Real, VInt z => (Z.abs z <? 1000)%Z
  | Text, VStr s => forallb (fun c => c <? 128)%N s
  | _, _ => false
  end.
Lemma const_ok_takes : forall k v, const_ok k v = true -> takes k v.
Proof.
  intros [] []; cbn [const_ok takes integral real textual]; try discriminate; try (intros _; exact Logic.I).
  - intro H. apply Z.ltb_lt in H. eapply Z.lt_trans; [exact H|]. reflexivity.
  - intro H. apply Forall_forall. rewrite forallb_forall in H. intros c Hc. specialize (H c Hc). apply N.ltb_lt in H. left. lia.
Qed.
Definition kind_eqb (a b : kind) : bool :=
  match a, b with
  | Int, Int | Real, Real | Text, Text | Label, Label | Number, Number | Ints, Ints | Reals, Reals | Table, Table | Matrix, Matrix => true
  | Entry i, Entry j => Nat.eqb i j
  | _, _ => false
  end.
Lemma kind_eqb_eq : forall a b, kind_eqb a b = true -> a = b.
Proof. intros [] []; cbn; try discriminate; try reflexivity. intro H. apply Nat.eqb_eq in H. congruence. Qed.
Definition need_eqb (a b : need) : bool := match a, b with Must, Must | May, May => true | _, _ => false end.
Lemma need_eqb_eq : forall a b, need_eqb a b = true -> a = b.
Proof. intros [] []; cbn; congruence. Qed.
Definition row_eqb (a b : string * kind * need) : bool :=
  String.eqb (fst (fst a)) (fst (fst b)) && kind_eqb (snd (fst a)) (snd (fst b)) && need_eqb (snd a) (snd b).
Lemma row_eqb_eq : forall a b, row_eqb a b = true -> a = b.
Proof.
  intros [[a k] n] [[b k2] n2] H. unfold row_eqb in H. cbn [fst snd] in H. apply andb_true_iff in H as [H H3]. apply andb_true_iff in H as [H1 H2].
  apply String.eqb_eq in H1. apply kind_eqb_eq in H2. apply need_eqb_eq in H3. congruence.
Qed.
Definition sub (a b : list (string * kind * need)) : bool := forallb (fun x => existsb (row_eqb x) b) a.
Lemma sub_Forall : forall P a b, sub a b = true -> Forall P b -> Forall P a.
Proof.
  intros P a b H F. rewrite Forall_forall in *. intros x Hx. unfold sub in H. rewrite forallb_forall in H. specialize (H x Hx). apply existsb_exists in H as (y & Hy & E).
  apply row_eqb_eq in E. subst. auto.
Qed.
(** Needs: the fields with a default, with the kind of the default. *)
Definition need_of (defs : list (string * kind)) (n : string) (k : kind) : option need :=
  match find (fun x => String.eqb n (fst x)) defs with
  | None => Some Must
  | Some x => if kind_eqb (snd x) k then Some May else None
  end.
Fixpoint scalar_table (defs : list (string * kind)) (ats : list (kind * src)) : option (list (string * kind * need)) :=
  match ats with
  | [] => Some []
  | (k, SConst v) :: r => if const_ok k v then scalar_table defs r else None
  | (k, SField n) :: r =>
      match need_of defs n k, scalar_table defs r with
      | Some x, Some t => Some ((n, k, x) :: t)
      | _, _ => None
      end
  | _ => None
  end.
Definition defaults_ok (P : kind -> pyval -> Prop) (ds : list (string * kind)) (defs : dict) : Prop :=
  Forall2 (fun x kv => fst kv = KS (fst x) /\ P (snd x) (snd kv)) ds defs.
Lemma need_get : forall P ds defs n k x, defaults_ok P ds defs -> need_of ds n k = Some x ->
  match x with Must => dget defs (KS n) = None | May => exists v, dget defs (KS n) = Some v /\ P k v end.
Proof.
  intros P ds defs n k x H. unfold need_of. induction H as [|[m km] [key v] ds defs [Hk Hv] _ IH]; cbn [find dget].
  - intro E. injection E as <-. reflexivity.
  - cbn [fst snd] in *. subst key. destruct (String.eqb_spec n m) as [->|Hn].
    + cbn [snd]. destruct (kind_eqb km k) eqn:Ek; [|intro E; discriminate E]. intro E. injection E as <-. apply kind_eqb_eq in Ek. subst km. exists v.
      destruct (key_eqb_spec (KS m) (KS m)); [auto|congruence].
    + destruct (key_eqb_spec (KS n) (KS m)); [congruence|exact IH].
Qed.
Lemma scalar_table_iff : forall d ds defs i ats t, defaults_ok takes ds defs -> scalar_table ds ats = Some t ->
  (Forall (holds (opt_fields d defs) i) ats <-> Forall (field_ok d) t).
Proof.
  intros d ds defs i ats t Hd. revert t. induction ats as [|[k s] ats IH]; intros t H; cbn [scalar_table] in H.
  - injection H as <-. split; constructor.
  - destruct s as [n|v| | | | |]; try discriminate.
    + destruct (need_of ds n k) as [x|] eqn:En; [|discriminate]. destruct (scalar_table ds ats) as [r|]; [|discriminate]. injection H as <-.
      rewrite !Forall_cons_iff, (IH _ eq_refl). unfold holds at 1. cbn [fst snd ev]. pose proof (need_get _ _ _ _ _ _ Hd En) as G. destruct x.
      * rewrite (good_must _ _ _ _ G). reflexivity.
      * destruct G as (v & G & Hv). rewrite (good_may _ _ _ _ _ G Hv). reflexivity.
    + destruct (const_ok k v) eqn:Ec; [|discriminate]. rewrite Forall_cons_iff, (IH _ H). unfold holds at 1. cbn [fst snd ev]. rewrite good_ok. apply const_ok_takes in Ec. tauto.
Qed.
Definition scalar_check (ds : list (string * kind)) (recs : list (string * list src)) (t : list (string * kind * need)) : bool :=
  match lines_atoms recs with
  | Some ats => match scalar_table ds ats with Some t' => sub t t' && sub t' t | None => false end
  | None => false
  end.
Lemma scalar_check_iff : forall d i ds defs recs t, defaults_ok takes ds defs -> scalar_check ds recs t = true ->
  (Forall ok_item (map (line (opt_fields d defs) i) recs) <-> Forall (field_ok d) t).
Proof.
  intros d i ds defs recs t Hd H. unfold scalar_check in H. destruct (lines_atoms recs) as [ats|] eqn:Ea; [|discriminate].
  destruct (scalar_table ds ats) as [t'|] eqn:Et; [|discriminate]. apply andb_true_iff in H as [H1 H2].
  rewrite (lines_iff _ _ _ _ Ea), (scalar_table_iff _ _ _ _ _ _ Hd Et). split; intro F; eapply sub_Forall; eassumption.
Qed.
Definition HDR (n : Z) : string * list src := ("%6i\n%6i%74s\n", [SConst (VInt (-1)); SConst (VInt n); SConst (VStr (lit " "))]).
Definition END : string * list src := ("%6i\n", [SConst (VInt (-1))]).
(** A writer whose steps are such lines with one dictionary [opt_fields d defs]. *)
Lemma scalar_plan : forall (g : dict -> list item) d ds defs recs t, (forall e, g e = map (line e 0) recs) -> defaults_ok takes ds defs -> scalar_check ds recs t = true ->
  (Forall ok_item (g (opt_fields d defs)) <-> Forall (field_ok d) t).
Proof. intros g d ds defs recs t H Hd Hc. rewrite H. apply (scalar_check_iff _ _ ds); assumption. Qed.
Ltac scalar_items d ds recs :=
  match goal with |- Forall ok_item ?l <-> _ =>
    match l with context [opt_fields d ?defs] =>
      match eval pattern (opt_fields d defs) in l with ?g _ => refine (scalar_plan g d ds defs recs _ _ _ _); [intro; reflexivity| |vm_compute; reflexivity] end end end.
(** The same without defaults. *)
Lemma scalar_plan0 : forall (g : dict -> list item) d recs t, (forall e, g e = map (line e 0) recs) -> scalar_check [] recs t = true ->
  (Forall ok_item (g d) <-> Forall (field_ok d) t).
Proof. intros g d recs t H Hc. apply (scalar_plan g d [] [] recs t H); [constructor|exact Hc]. Qed.
Ltac scalar_items0 d recs :=
  match goal with |- Forall ok_item ?l <-> _ => match eval pattern d in l with ?g _ => refine (scalar_plan0 g d recs _ _ _); [intro; reflexivity|vm_compute; reflexivity] end end.

(** *** Columns *)
Lemma to_seq_entries : forall v, to_seq v = match entries v with Some l => Ok l | None => Err TypeError end.
Proof. destruct v; reflexivity. Qed.
Lemma good_at : forall k r i, good k (at_ r (Z.of_nat i)) <-> exists v l x, r = Ok v /\ entries v = Some l /\ nth_error l i = Some x /\ takes k x.
Proof.
  intros k r i. unfold good, at_. destruct r as [v|e]; cbn [rbind].
  - rewrite to_seq_entries. destruct (entries v) as [l|] eqn:E; cbn [rbind].
    + rewrite py_nth_nat. destruct (nth_error l i) as [x|] eqn:Ex; cbn [of_option].
      * split; [intros (y & Ey & Hy); injection Ey as <-; exists v, l, x; auto|]. intros (v' & l' & x' & E1 & E2 & E3 & E4). exists x. split; [reflexivity|]. congruence.
      * split; [intros (y & Ey & Hy); discriminate|]. intros (v' & l' & x' & E1 & E2 & E3 & E4). congruence.
    + split; [intros (y & Ey & Hy); discriminate|]. intros (v' & l' & x' & E1 & E2 & E3 & E4). congruence.
  - split; [intros (y & Ey & Hy); discriminate|]. intros (v' & l' & x' & E1 & E2 & E3 & E4). discriminate.
Qed.
Lemma good_lab : forall r, good Int (int_arg r) <-> good Label r.
Proof.
  intro r. unfold good, int_arg. destruct r as [v|e]; cbn [rbind].
  - destruct (to_int v) as [z|] eqn:E; cbn [rbind].
    + split; [|intros _; exists (VInt z); split; [reflexivity|exact Logic.I]]. intros _. exists v. split; [reflexivity|]. apply label_iff. eauto.
    + split; [intros (x & Ex & _); discriminate|]. intros (x & Ex & Hx). injection Ex as <-. apply label_iff in Hx as [z Hz]. congruence.
  - split; intros (x & Ex & _); discriminate.
Qed.
Lemma good_ent : forall r j, good Real (at_ r (Z.of_nat j)) <-> good (Entry j) r.
Proof.
  intros r j. rewrite good_at. unfold good. cbn [takes]. split.
  - intros (v & l & x & -> & H2 & H3 & H4). exists v. split; [reflexivity|]. exists l, x. auto.
  - intros (v & -> & l & x & H2 & H3 & H4). exists v, l, x. auto.
Qed.
Lemma good_re : forall r, good Real (real_of r) <-> good Number r.
Proof.
  intro r. unfold good, real_of. destruct r as [v|e]; cbn [rbind]; [|split; intros (x & Ex & _); discriminate].
  destruct v; try (split; intros (x & Ex & Hx); [discriminate Ex|injection Ex as <-; destruct Hx]; fail);
    (split; intros (x & Ex & Hx); injection Ex as <-; [eexists; split; [reflexivity|]; cbn [takes real]; try exact Hx; try exact Logic.I
                                                      |eexists; split; [reflexivity|]; cbn [takes real]; try exact Hx; try exact Logic.I]).
  destruct b; reflexivity.
Qed.
Lemma good_im : forall r, good Number r -> good Real (imag_of r).
Proof.
  intros r (v & -> & Hv). unfold good, imag_of. cbn [rbind]. destruct v; try destruct Hv; (eexists; split; [reflexivity|]; cbn [takes real]; try exact Logic.I; reflexivity).
Qed.

Definition is_re (n : string) (a : kind * src) : bool := match a with (Real, SRe m) => String.eqb n m | _ => false end.
Fixpoint col_table (ds : list (string * kind)) (all ats : list (kind * src)) : option (list (string * kind * need)) :=
  match ats with
  | [] => Some []
  | a :: r =>
      match col_table ds all r with
      | None => None
      | Some t =>
          let add n k := match need_of ds n k with Some x => Some ((n, k, x) :: t) | None => None end in
          match a with
          | (k, SConst v) => if const_ok k v then Some t else None
          | (k, SCol n) => add n k
          | (Int, SLab n) => add n Label
          | (Real, SEnt n j) => add n (Entry j)
          | (Real, SRe n) => add n Number
          | (Real, SIm n) => if existsb (is_re n) all then Some t else None
          | _ => None
          end
      end
  end.
Definition column_in (k : kind) (n : nat) (v : pyval) : Prop := exists l, entries v = Some l /\ n <= length l /\ Forall (takes k) (firstn n l).
Lemma column_get : forall d k nm n, 0 < n ->
  ((forall i, i < n -> good k (at_ (ix d nm) (Z.of_nat i))) <-> match dget d (KS nm) with Some v => column_in k n v | None => False end).
Proof.
  intros d k nm n Hn. unfold ix. destruct (dget d (KS nm)) as [v|]; cbn [of_option].
  - split.
    + intro H. destruct (proj1 (good_at _ _ _) (H 0 Hn)) as (v' & l & x & Ev & El & _). injection Ev as <-. exists l. split; [exact El|].
      assert (L : n <= length l).
      { destruct n as [|m]; [lia|]. destruct (proj1 (good_at _ _ _) (H m (Nat.lt_succ_diag_r m))) as (v' & l' & y & Ev & El' & En & _).
        injection Ev as <-. rewrite El in El'. injection El' as <-. apply nth_error_Some. congruence. }
      split; [exact L|]. apply Forall_forall. intros y Hy. apply In_nth_error in Hy as [i Hi]. assert (Hin : i < n).
      { assert (i < length (firstn n l)) by (apply nth_error_Some; congruence). rewrite firstn_length in *. lia. }
      destruct (proj1 (good_at _ _ _) (H i Hin)) as (v' & l' & z & Ev & El' & En & Hz). injection Ev as <-. rewrite El in El'. injection El' as <-.
      assert (E : nth_error (firstn n l) i = nth_error l i).
      { rewrite <- (firstn_skipn n l) at 2. rewrite nth_error_app1; [reflexivity|]. rewrite firstn_length. lia. }
      congruence.
    + intros (l & El & L & F) i Hi. apply good_at. destruct (nth_error l i) as [x|] eqn:Ex; [|apply nth_error_None in Ex; lia].
      exists v, l, x. split; [reflexivity|]. split; [exact El|]. split; [exact Ex|]. rewrite Forall_forall in F. apply F. apply (nth_error_In _ i).
      rewrite <- Ex. rewrite <- (firstn_skipn n l) at 2. rewrite nth_error_app1; [reflexivity|]. rewrite firstn_length. lia.
  - split; [|intros []]. intro H. destruct (proj1 (good_at _ _ _) (H 0 Hn)) as (v & l & x & Ev & _). discriminate.
Qed.
Lemma column_opt : forall d ds defs k nm n x, 0 < n -> defaults_ok (fun k v => column_in k n v) ds defs -> need_of ds nm k = Some x ->
  ((forall i, i < n -> good k (at_ (ix (opt_fields d defs) nm) (Z.of_nat i))) <-> column_ok d n (nm, k, x)).
Proof.
  intros d ds defs k nm n x Hn Hd Hx. rewrite column_get by exact Hn. rewrite opt_fields_get. unfold column_ok. cbn [fst snd].
  pose proof (need_get _ _ _ _ _ _ Hd Hx) as G. destruct (dget d (KS nm)) as [v|]; [reflexivity|]. destruct x.
  - rewrite G. split; [intros []|discriminate].
  - destruct G as (v & G & Hv). rewrite G. tauto.
Qed.
Lemma col_table_iff : forall d ds defs n all ats t, 0 < n -> defaults_ok (fun k v => column_in k n v) ds defs -> col_table ds all ats = Some t ->
  (forall i, i < n -> Forall (holds (opt_fields d defs) i) ats) -> Forall (column_ok d n) t.
Proof.
  intros d ds defs n all ats t Hn Hd. revert t. induction ats as [|[k s] ats IH]; intros t H F; cbn [col_table] in H.
  - injection H as <-. constructor.
  - destruct (col_table ds all ats) as [r|]; [|discriminate].
    assert (F1 : forall i, i < n -> holds (opt_fields d defs) i (k, s)) by (intros i Hi; specialize (F i Hi); inversion F; assumption).
    assert (F2 : Forall (column_ok d n) r) by (apply IH; [reflexivity|]; intros i Hi; specialize (F i Hi); inversion F; assumption).
    unfold holds in F1. cbn [fst snd] in F1.
    assert (A : forall nm kk, (forall i, i < n -> good kk (at_ (ix (opt_fields d defs) nm) (Z.of_nat i))) ->
      match need_of ds nm kk with Some x => Some ((nm, kk, x) :: r) | None => None end = Some t -> Forall (column_ok d n) t).
    { intros nm kk G E. destruct (need_of ds nm kk) as [x|] eqn:Ex; [|discriminate]. injection E as <-. constructor; [|exact F2].
      apply (column_opt d ds defs kk nm n x Hn Hd Ex). exact G. }
    destruct s as [nm|v|nm|nm|nm j|nm|nm]; cbn [ev] in F1.
    + destruct k; discriminate.
    + assert (E : r = t) by (destruct k; (destruct (const_ok _ v); [congruence|discriminate])). congruence.
    + apply (A nm k F1). destruct k; exact H.
    + destruct k; try discriminate. apply (A nm Label); [|exact H]. intros i Hi. apply good_lab, F1, Hi.
    + destruct k; try discriminate. apply (A nm (Entry j)); [|exact H]. intros i Hi. apply good_ent, F1, Hi.
    + destruct k; try discriminate. apply (A nm Number); [|exact H]. intros i Hi. apply good_re, F1, Hi.
    + destruct k; try discriminate. destruct (existsb (is_re nm) all); [congruence|discriminate].
Qed.
Lemma col_table_conv : forall d ds defs n all ats t i, i < n -> defaults_ok (fun k v => column_in k n v) ds defs -> col_table ds all ats = Some t ->
  (forall nm, existsb (is_re nm) all = true -> holds (opt_fields d defs) i (Real, SRe nm)) -> Forall (column_ok d n) t -> Forall (holds (opt_fields d defs) i) ats.
Proof.
  intros d ds defs n all ats t i Hi Hd. revert t. induction ats as [|[k s] ats IH]; intros t H Hre F; cbn [col_table] in H.
  - constructor.
  - destruct (col_table ds all ats) as [r|]; [|discriminate].
    assert (A : forall nm kk, match need_of ds nm kk with Some x => Some ((nm, kk, x) :: r) | None => None end = Some t ->
       good kk (at_ (ix (opt_fields d defs) nm) (Z.of_nat i)) /\ Forall (column_ok d n) r).
    { intros nm kk E. destruct (need_of ds nm kk) as [x|] eqn:Ex; [|discriminate]. injection E as <-. inversion F; subst. split; [|assumption].
      apply (column_opt d ds defs kk nm n x); auto. lia. }
    assert (B : Forall (column_ok d n) r -> Forall (holds (opt_fields d defs) i) ats) by (intro; apply (IH r); auto).
    assert (C : holds (opt_fields d defs) i (k, s) /\ Forall (column_ok d n) r).
    { unfold holds. cbn [fst snd]. destruct s as [nm|v|nm|nm|nm j|nm|nm]; cbn [ev].
      - destruct k; discriminate.
      - assert (E : const_ok k v = true /\ r = t) by (destruct k; (destruct (const_ok _ v) eqn:Ec; [split; congruence|discriminate])).
        destruct E as [E ->]. split; [|exact F]. apply good_ok, const_ok_takes, E.
      - assert (E : match need_of ds nm k with Some x => Some ((nm, k, x) :: r) | None => None end = Some t) by (destruct k; exact H). exact (A _ _ E).
      - destruct k; try discriminate. destruct (A _ _ H) as [A1 A2]. split; [apply good_lab; exact A1|exact A2].
      - destruct k; try discriminate. destruct (A _ _ H) as [A1 A2]. split; [apply good_ent; exact A1|exact A2].
      - destruct k; try discriminate. destruct (A _ _ H) as [A1 A2]. split; [apply good_re; exact A1|exact A2].
      - destruct k; try discriminate. destruct (existsb (is_re nm) all) eqn:E; [|discriminate]. split; [|congruence].
        specialize (Hre nm E). unfold holds in Hre. cbn [fst snd ev] in Hre. apply good_im, good_re, Hre. }
    constructor; [exact (proj1 C)|exact (B (proj2 C))].
Qed.
Lemma re_in_table : forall ds all ats t nm, col_table ds all ats = Some t -> existsb (is_re nm) ats = true ->
  exists x, need_of ds nm Number = Some x /\ In (nm, Number, x) t.
Proof.
  intros ds all. induction ats as [|[k s] ats IH]; intros t nm H E; [discriminate|]. cbn [col_table] in H. destruct (col_table ds all ats) as [r|]; [|discriminate].
  cbn [existsb] in E. apply orb_true_iff in E as [E|E].
  - unfold is_re in E. destruct k; try discriminate. destruct s as [| | | | |m|]; try discriminate. apply String.eqb_eq in E. subst m.
    destruct (need_of ds nm Number) as [x|]; [|discriminate]. injection H as <-. exists x. split; [reflexivity|left; reflexivity].
  - destruct (IH r nm eq_refl E) as (x & Hx & Hin). exists x. split; [exact Hx|].
    assert (K : forall z, Some (z :: r) = Some t -> In (nm, Number, x) t) by (intros z Ez; injection Ez as <-; right; exact Hin).
    assert (K0 : Some r = Some t -> In (nm, Number, x) t) by (intro Ez; injection Ez as <-; exact Hin).
    destruct s; destruct k; try discriminate; try (destruct (need_of ds _ _); [exact (K _ H)|discriminate]);
      try (destruct (const_ok _ _); [exact (K0 H)|discriminate]); try (destruct (existsb _ all); [exact (K0 H)|discriminate]).
Qed.
Lemma col_base : forall (g : dict -> Z -> list item) d ds defs n ats t t',
  (forall e i, Forall ok_item (g e (Z.of_nat i)) <-> Forall (holds e i) ats) -> defaults_ok (fun k v => column_in k n v) ds defs ->
  col_table ds ats ats = Some t' -> sub t t' && sub t' t = true ->
  (Forall ok_item (flat_map (g (opt_fields d defs)) (map Z.of_nat (seq 0 n))) <-> n = 0 \/ Forall (column_ok d n) t).
Proof.
  intros g d ds defs n ats t t' Hg Hd Ht Hs. apply andb_true_iff in Hs as [S1 S2].
  assert (X : Forall ok_item (flat_map (g (opt_fields d defs)) (map Z.of_nat (seq 0 n))) <-> forall i, i < n -> Forall (holds (opt_fields d defs) i) ats).
  { rewrite List.Forall_flat_map, List.Forall_map, Forall_forall. split.
    - intros H i Hi. apply Hg, H, in_seq. lia.
    - intros H i Hi. apply in_seq in Hi. apply Hg, H. lia. }
  rewrite X. destruct (Nat.eq_dec n 0) as [->|N]; [split; [left; reflexivity|intros _ i Hi; lia]|]. assert (P : 0 < n) by lia.
  split.
  - intro H. right. apply (sub_Forall _ _ _ S1). exact (col_table_iff d ds defs n ats ats t' P Hd Ht H).
  - intros [->|F]; [lia|]. apply (sub_Forall _ _ _ S2) in F. intros i Hi. apply (col_table_conv d ds defs n ats ats t' i Hi Hd Ht); [|exact F].
    intros nm E. destruct (re_in_table _ _ _ _ _ Ht E) as (x & Hx & Hin). unfold holds. cbn [fst snd ev]. apply good_re.
    rewrite Forall_forall in F. apply (column_opt d ds defs Number nm n x P Hd Hx); [exact (F _ Hin)|exact Hi].
Qed.
Definition col_check (ds : list (string * kind)) (recs : list (string * list src)) (t : list (string * kind * need)) : bool :=
  match lines_atoms recs with
  | Some ats => match col_table ds ats ats with Some t' => sub t t' && sub t' t | None => false end
  | None => false
  end.
Lemma col_plan : forall (g : dict -> Z -> list item) d ds defs n recs t, (forall e i, g e (Z.of_nat i) = map (line e i) recs) ->
  defaults_ok (fun k v => column_in k n v) ds defs -> col_check ds recs t = true ->
  (Forall ok_item (flat_map (g (opt_fields d defs)) (map Z.of_nat (seq 0 n))) <-> n = 0 \/ Forall (column_ok d n) t).
Proof.
  intros g d ds defs n recs t Hg Hd Hc. unfold col_check in Hc. destruct (lines_atoms recs) as [ats|] eqn:Ea; [|discriminate].
  destruct (col_table ds ats ats) as [t'|] eqn:Et; [|discriminate]. apply (col_base g d ds defs n ats t t'); try assumption.
  intros e i. rewrite Hg. apply lines_iff. exact Ea.
Qed.
Lemma fmt_f0_chars : forall f, forallb fltch (fmt_f0 f) = true.
Proof.
  intro f. destruct f as [s|s| |s m e]; [destruct s; reflexivity|destruct s; reflexivity|reflexivity|].
  cbn [fmt_f0]. destruct (frac_of m e) as [n d] eqn:E. destruct (frac_of_spec _ _ _ _ E) as (Hn & Hd & _).
  assert (Hr : (0 <= rne n d)%Z).
  { unfold rne. assert (0 <= n / d)%Z by (apply Z.div_pos; lia).
    repeat match goal with |- context [if ?b then _ else _] => destruct b | |- context [match ?x with Eq => _ | Lt => _ | Gt => _ end] => destruct x end; lia. }
  rewrite forallb_app. apply andb_true_iff. split; [destruct s; reflexivity|]. eapply forallb_impl; [apply digit_fltch|]. apply dec_nat_digits. assumption.
Qed.
Lemma record_ok : forall fs args, length args = length fs -> (ok_item (WTxt (write_record args fs false)) <-> Forall (good Real) args).
Proof.
  intros fs args L. cbn [ok_item]. unfold write_record.
  assert (X : forall fs args, length args = length fs ->
    ((exists vs parts, rseq args = Ok vs /\ rseq (map (fun '(v, f) => fstr f v) (combine vs fs)) = Ok parts /\ Forall scalar (concat parts)) <-> Forall (good Real) args)).
  { clear. induction fs as [|f fs IH]; intros [|a args] L; try discriminate.
    - split; [constructor|]. intros _. exists [], []. repeat split. constructor.
    - injection L as L. rewrite Forall_cons_iff, <- (IH args L). clear IH. split.
      + intros (vs & parts & H1 & H2 & H3). cbn [rseq] in H1. destruct a as [v|]; [|discriminate]. cbn [rbind] in H1. destruct (rseq args) as [vs'|] eqn:Ea; [|discriminate].
        cbn [rbind] in H1. injection H1 as <-. cbn [combine map rseq] in H2. unfold fstr at 1 in H2. destruct (fstr_arg v) as [x|] eqn:Ex; [|discriminate]. cbn [rbind] in H2.
        destruct (rseq (map _ (combine vs' fs))) as [ps|] eqn:Ep; [|discriminate]. cbn [rbind] in H2. injection H2 as <-. cbn [concat] in H3. apply Forall_app in H3 as [H3 H4].
        split; [exists v; split; [reflexivity|apply real_iff2; eauto]|]. exists vs', ps. auto.
      + intros ((v & -> & Hv) & vs & ps & H1 & H2 & H3). apply real_iff2 in Hv as [x Hx]. cbn [rseq rbind]. rewrite H1. cbn [rbind]. eexists _, _. split; [reflexivity|].
        cbn [combine map rseq]. unfold fstr at 1. rewrite Hx. cbn [rbind]. rewrite H2. cbn [rbind]. split; [reflexivity|]. cbn [concat]. apply Forall_app. split; [|exact H3].
        destruct f; apply rjust_scalar, fltch_scalar; [apply fmt_f0_chars|apply fmt_e_chars]. }
  rewrite <- (X fs args L). split.
  - intros (s & H & Hs). destruct (rseq args) as [vs|]; [|discriminate]. cbn [rbind] in H. destruct (rseq (map _ (combine vs fs))) as [ps|] eqn:Ep; [|discriminate]. cbn [rbind] in H.
    injection H as <-. apply Forall_app in Hs as [Hs _]. exists vs, ps. auto.
  - intros (vs & ps & H1 & H2 & H3). rewrite H1. cbn [rbind]. rewrite H2. cbn [rbind]. eexists. split; [reflexivity|]. apply Forall_app. split; [exact H3|].
    repeat constructor.
Qed.
