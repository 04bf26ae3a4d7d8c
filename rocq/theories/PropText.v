(** Properties C14-C20: numbers and text in fixed-width records, header lines,
    dictionary helpers. *)
From Coq Require Import String List NArith ZArith Bool QArith Qabs Lia.
Import ListNotations.
From Verif Require Import PyBase PyNum PyVal Utf8 Tools Facts IntFacts QFacts FloatFacts DecFacts FloatText FloatExact
  Utf8Facts DictFacts.
Open Scope string_scope.
Open Scope list_scope.
Open Scope nat_scope.

(* ------------------------------------------------------------------ *)
(** C14 *)

(** The text of '%wi': blanks, an optional minus sign, digits without leading
    zero whose value is the integer; no more characters than needed. *)
Theorem C14_printed : forall w z,
  exists sp neg ds, fmt_specs [FInt w] [VInt z] = Ok (repeat 32%N sp ++ (if neg : bool then [45%N] else []) ++ ds) /\
    ds <> [] /\ forallb is_digit ds = true /\ (neg = true <-> (z < 0)%Z) /\
    z = (if neg then - digits_val ds else digits_val ds)%Z /\
    (1 < length ds -> (10 ^ (Z.of_nat (length ds) - 1) <= Z.abs z)%Z) /\
    sp = w - (length ds + if neg then 1 else 0).
Proof.
  intros w z. assert (Ha : (0 <= Z.abs z)%Z) by lia.
  destruct (dec_aux_spec _ _ (dec_nat_fuel _ Ha)) as (H1 & H2 & H3 & H4 & H5). fold (dec_nat (Z.abs z)) in *.
  exists (w - length (dec_Z z)), (z <? 0)%Z, (dec_nat (Z.abs z)).
  assert (E : dec_Z z = (if (z <? 0)%Z then [45%N] else []) ++ dec_nat (Z.abs z)).
  { unfold dec_Z. destruct (Z.ltb_spec z 0); [rewrite Z.abs_neq by lia; reflexivity|rewrite Z.abs_eq by lia; reflexivity]. }
  split. { cbn. rewrite app_nil_r. unfold rjust. rewrite E at 2. reflexivity. }
  split; [apply dec_nat_nonnil; assumption|]. split; [assumption|].
  split; [destruct (Z.ltb_spec z 0); split; intro; (discriminate || lia || reflexivity)|].
  split; [rewrite H1; destruct (Z.ltb_spec z 0); lia|]. split.
  - intro Hl. apply H5. destruct (Z.eq_dec z 0) as [->|]; [cbn in Hl; lia|lia].
  - rewrite E, app_length. destruct (z <? 0)%Z; cbn [length]; lia.
Qed.
Print Assumptions C14_printed.

(** Fixed-width reading, whatever the neighbouring columns hold. *)
Theorem C14_fixed_width : forall w z s before after,
  fmt_specs [FInt w] [VInt z] = Ok s -> (- 10 ^ (Z.of_nat w - 1) < z < 10 ^ Z.of_nat w)%Z -> 1 <= w ->
  length s = w /\ py_int (slice (length before) (length before + w) (before ++ s ++ after)) = Ok z.
Proof.
  intros w z s before after Hs Hz Hw. cbn in Hs. rewrite app_nil_r in Hs. injection Hs as <-.
  apply dec_Z_length in Hz; [|assumption]. assert (Hl := rjust_length w (dec_Z z) Hz). split; [assumption|].
  rewrite <- Hl at 1. rewrite slice_app_mid. apply py_int_rjust.
Qed.
Print Assumptions C14_fixed_width.

(** Blank-separated reading of a whole row. *)
Theorem C14_blank_separated : forall (row : list (nat * Z)) texts,
  Forall2 (fun wz s => fmt_specs [FInt (fst wz)] [VInt (snd wz)] = Ok s) row texts ->
  Forall (fun wz => 2 <= fst wz /\ (- 10 ^ (Z.of_nat (fst wz) - 2) < snd wz < 10 ^ (Z.of_nat (fst wz) - 1))%Z) row ->
  parse_ints (split (concat texts)) = Ok (map snd row).
Proof.
  intros row texts H2 H. assert (Hs : split (concat texts) = map (fun wz => dec_Z (snd wz)) row).
  { rewrite <- (app_nil_r (concat texts)).
    assert (E : concat texts = spaced (map (fun wz => (repeat blank (fst wz - length (dec_Z (snd wz))), dec_Z (snd wz))) row)).
    { clear H. induction H2 as [|[w z] s row texts Hs _ IH]; [reflexivity|]. cbn in Hs. rewrite app_nil_r in Hs. injection Hs as <-.
      cbn [concat map spaced fst snd]. rewrite IH. unfold rjust. rewrite <- app_assoc. reflexivity. }
    rewrite E. rewrite split_spaced; [rewrite map_map; reflexivity| |reflexivity].
    apply Forall_map. eapply Forall_impl; [|exact H]. intros [w z] [Hw Hz]. cbn [fst snd] in *.
    assert (Hl : length (dec_Z z) <= w - 1).
    { apply dec_Z_length; [lia|]. rewrite Nat2Z.inj_sub by lia. change (Z.of_nat 1) with 1%Z.
      replace (Z.of_nat w - 1 - 1)%Z with (Z.of_nat w - 2)%Z by lia. assumption. }
    split; [|split; [apply blanks_ws|apply dec_Z_nonws]].
    destruct (w - length (dec_Z z)) eqn:E2; [lia|discriminate]. }
  rewrite Hs. unfold parse_ints. apply rmap_Forall2. clear. induction row as [|[w z] row IH]; cbn [map]; constructor; auto.
  apply py_int_dec.
Qed.
Print Assumptions C14_blank_separated.
Example C14_example : (- 10 ^ (Z.of_nat 6 - 1) < -99999 < 10 ^ Z.of_nat 6)%Z /\
  fmt_specs [FInt 6] [VInt (-99999)] = Ok (lit "-99999") /\ fmt_specs [FInt 10] [VInt 42] = Ok (lit "        42").
Proof. split; [lia|]. split; reflexivity. Qed.

(* ------------------------------------------------------------------ *)
Lemma fmt_exp_1 : forall w p f s, fmt_specs [FExp w p] [VFloat f] = Ok s -> s = rjust w (fmt_e false p f).
Proof. intros w p f s H. cbn [fmt_specs fmt_float_arg rbind] in H. rewrite app_nil_r in H. congruence. Qed.
(** C15 *)
Theorem C15_seventeen_digits : forall f s before after,
  f_valid f = true -> fmt_specs [FExp 25 16] [VFloat f] = Ok s ->
  length s = 25 /\ hd 0%N s = 32%N /\
  py_float s = Ok f /\ py_float (slice (length before) (length before + 25) (before ++ s ++ after)) = Ok f.
Proof.
  intros f s before after Hf Hs. apply fmt_exp_1 in Hs. subst s.
  assert (Hw := fmt_e_length false 16 f ltac:(lia) Hf).
  assert (Hl := rjust_length 25 (fmt_e false 16 f) ltac:(lia)). split; [assumption|]. split.
  { unfold rjust. destruct (25 - length (fmt_e false 16 f)) eqn:E; [lia|reflexivity]. }
  assert (Hp : py_float (rjust 25 (fmt_e false 16 f)) = Ok f) by (rewrite py_float_rjust, rd16_id by assumption; reflexivity).
  split; [assumption|]. rewrite <- Hl at 1. rewrite slice_app_mid. assumption.
Qed.
Print Assumptions C15_seventeen_digits.
(** A row of such numbers read by splitting at blanks. *)
Theorem C15_row : forall (fs : list float) texts,
  Forall (fun f => f_valid f = true) fs -> Forall2 (fun f s => fmt_specs [FExp 25 16] [VFloat f] = Ok s) fs texts ->
  parse_floats (split (concat texts)) = Ok fs.
Proof.
  intros fs texts Hv H2.
  assert (Hs : split (concat texts) = map (fmt_e false 16) fs).
  { rewrite <- (app_nil_r (concat texts)).
    assert (E : concat texts = spaced (map (fun f => (repeat blank (25 - length (fmt_e false 16 f)), fmt_e false 16 f)) fs)).
    { clear Hv. induction H2 as [|f s fs texts Hs _ IH]; [reflexivity|]. apply fmt_exp_1 in Hs. subst s.
      cbn [concat map spaced fst snd]. rewrite IH. unfold rjust. rewrite <- app_assoc. reflexivity. }
    rewrite E. rewrite split_spaced; [rewrite map_map; reflexivity| |reflexivity].
    apply Forall_map. eapply Forall_impl; [|exact Hv]. intros f Hf. cbn [fst snd].
    assert (Hw := fmt_e_length false 16 f ltac:(lia) Hf).
    split; [|split; [apply blanks_ws|apply fmt_e_nonws]]. destruct (25 - length (fmt_e false 16 f)) eqn:E2; [lia|discriminate]. }
  rewrite Hs. unfold parse_floats. apply rmap_Forall2. clear - Hv. induction Hv as [|f fs Hf _ IH]; cbn [map]; constructor; auto.
  rewrite py_float_fmt, rd16_id by assumption. reflexivity.
Qed.
Print Assumptions C15_row.
(** The smallest subnormal, a three-digit negative exponent, the largest double. *)
Example C15_example :
  fmt_specs [FExp 25 16] [VFloat (S754_finite true 1 (-1074))] = Ok (lit " -4.9406564584124654e-324") /\
  f_valid (S754_finite true 1 (-1074)) = true /\ f_valid (f_max false) = true /\
  fmt_specs [FExp 25 16] [VFloat (f_max false)] = Ok (lit "  1.7976931348623157e+308").
Proof. split; [vm_compute; reflexivity|]. split; [vm_compute; reflexivity|]. split; vm_compute; reflexivity. Qed.

(* ------------------------------------------------------------------ *)
(** C16 *)

(** [qm m e] is m * 2^e, [fmag] the magnitude of a finite float.  The formats of
    the code are %13.5e, %15.7e and %20.11e. *)
Theorem C16_rounded : forall w p s m e text,
  p = 5 \/ p = 7 \/ p = 11 ->
  f_valid (S754_finite s m e) = true ->
  fmt_specs [FExp w p] [VFloat (S754_finite s m e)] = Ok text ->
  exists y, py_float text = Ok y /\ f_valid y = true /\ f_finite y = true /\
    ((2 ^ 52 <= Z.pos m)%Z ->   (* normal range: magnitude at least 2^-1022 *)
       fsign y = s /\
       (Qabs (fmag y - qm m e) <= (51 # 100) * (10 ^ (- Z.of_nat p)) * qm m e)%Q /\
       fmt_specs [FExp w p] [VFloat y] = Ok text).
Proof.
  intros w p s m e text Hp Hf Ht.
  assert (Hs : short p) by (destruct Hp as [->|[->| ->]]; [apply short5|apply short7|apply short11]).
  apply fmt_exp_1 in Ht. exists (rd p (S754_finite s m e)). subst text. split; [apply py_float_rjust|].
  split; [apply rd_valid; assumption|]. split; [apply rd_finite; auto|].
  intro Hn. apply valid_canon in Hf as Hc. destruct (rd_facts p s m e Hs Hc) as (_ & _ & H3 & _).
  split; [assumption|]. split; [apply rd_error; assumption|].
  cbn [fmt_specs fmt_float_arg rbind]. rewrite app_nil_r. rewrite rd_stable; auto. cbn [f_normal]. apply Z.leb_le. assumption.
Qed.
Print Assumptions C16_rounded.
(** Zeros, infinities and NaN are read back as they are. *)
Theorem C16_special : forall w p f text,
  match f with S754_finite _ _ _ => False | _ => True end ->
  fmt_specs [FExp w p] [VFloat f] = Ok text -> py_float text = Ok f.
Proof.
  intros w p f text Hf Ht. cbn [fmt_specs fmt_float_arg rbind] in Ht. rewrite app_nil_r in Ht.
  assert (text = rjust w (fmt_e false p f)) by congruence. subst text. rewrite py_float_rjust. destruct f; [reflexivity..|contradiction].
Qed.
Print Assumptions C16_special.
(** Below the normal range the text need not be stable. *)
Theorem C16_subnormal_unstable :
  exists x t1 y t2, f_valid x = true /\ fmt_specs [FExp 13 5] [VFloat x] = Ok t1 /\ py_float t1 = Ok y /\
    fmt_specs [FExp 13 5] [VFloat y] = Ok t2 /\ t1 <> t2.
Proof.
  exists (S754_finite false 202403 (-1074)). eexists _, _, _.
  split; [vm_compute; reflexivity|]. split; [vm_compute; reflexivity|]. split; [vm_compute; reflexivity|].
  split; [vm_compute; reflexivity|]. discriminate.
Qed.
Print Assumptions C16_subnormal_unstable.
Example C16_example : fmt_specs [FExp 13 5] [VFloat (float_of_Z 1234567)] = Ok (lit "  1.23457e+06") /\
  f_valid (float_of_Z 1234567) = true.
Proof. split; vm_compute; reflexivity. Qed.

(* ------------------------------------------------------------------ *)
(** C17 *)
Theorem C17_utf8 : forall s rest, Forall scalar s ->
  exists b, utf8_encode s = Ok b /\ utf8_decode b = s /\
    forall file, run_items file (WTxt (Ok s) :: rest) = run_items (file ++ b) rest.
Proof.
  intros s rest H. destruct (utf8_enc_some s H) as [b Hb]. exists b. unfold utf8_encode. rewrite Hb.
  split; [reflexivity|]. split.
  - rewrite <- (app_nil_r b), (decode_encode _ _ [] Hb). apply app_nil_r.
  - intro file. cbn [run_items]. unfold utf8_encode. rewrite Hb. reflexivity.
Qed.
Print Assumptions C17_utf8.
Theorem C17_surrogates : forall file s rest, ~ Forall scalar s ->
  run_items file (WTxt (Ok s) :: rest) = (file, Some UnicodeError).
Proof. intros file s rest H. apply utf8_enc_none in H. cbn [run_items]. unfold utf8_encode. rewrite H. reflexivity. Qed.
Print Assumptions C17_surrogates.
Open Scope N_scope.
Lemma div_exact : forall a b q r, b <> 0 -> a = b * q + r -> r < b -> a / b = q /\ a mod b = r.
Proof.
  intros a b q r Hb -> Hr. split; [symmetry; apply (N.div_unique _ _ q r); [assumption|reflexivity]|symmetry; apply (N.mod_unique _ _ q r); [assumption|reflexivity]].
Qed.
Lemma decode_faithful : forall n b, (length b <= n)%nat -> ~ In REPL (utf8_decode b) -> utf8_enc (utf8_decode b) = Some b.
Proof.
  induction n as [|n IH]; intros [|b0 r0] Hl H; [reflexivity|cbn in Hl; lia|reflexivity|].
  cbn [utf8_decode] in *. destruct (b0 <? 128) eqn:E0.
  { cbn [utf8_enc]. rewrite IH; [|cbn in Hl; lia|intro Hi; apply H; right; exact Hi]. unfold enc1. rewrite E0. reflexivity. }
  apply N.ltb_ge in E0.
  destruct ((194 <=? b0) && (b0 <=? 223)) eqn:E1.
  { destruct r0 as [|b1 r1]; [exfalso; apply H; left; reflexivity|]. destruct (is_cont b1) eqn:C1; [|exfalso; apply H; left; reflexivity].
    cbn [utf8_enc]. rewrite IH; [|cbn in Hl; lia|intro Hi; apply H; right; exact Hi].
    unfold is_cont in *. rewrite andb_true_iff, !N.leb_le in *.
    destruct (div_exact ((b0 - 192) * 64 + (b1 - 128)) 64 (b0 - 192) (b1 - 128)) as [D M]; [lia|lia|lia|].
    unfold enc1. rewrite (proj2 (N.ltb_ge _ 128)) by lia. rewrite (proj2 (N.ltb_lt _ 2048)) by lia. rewrite D, M. cbn [app].
    repeat f_equal; lia. }
  destruct ((224 <=? b0) && (b0 <=? 239)) eqn:E2.
  { destruct r0 as [|b1 r1]; [exfalso; apply H; left; reflexivity|]. destruct (ok2_3 b0 b1) eqn:C1; [|exfalso; apply H; left; reflexivity].
    destruct r1 as [|b2 r2]; [exfalso; apply H; left; reflexivity|]. destruct (is_cont b2) eqn:C2; [|exfalso; apply H; left; reflexivity].
    cbn [utf8_enc]. rewrite IH; [|cbn in Hl; lia|intro Hi; apply H; right; exact Hi].
    unfold ok2_3, is_cont in *. rewrite !andb_true_iff, !N.leb_le in *. destruct C1 as [[C1 C3] C4].
    assert (L : b0 = 224 -> 160 <= b1) by (intros ->; apply N.leb_le; exact C3).
    assert (S : b0 = 237 -> b1 < 160) by (intros ->; apply N.ltb_lt; exact C4). clear C3 C4.
    set (c := (b0 - 224) * 4096 + (b1 - 128) * 64 + (b2 - 128)) in *.
    destruct (div_exact c 64 ((b0 - 224) * 64 + (b1 - 128)) (b2 - 128)) as [D M]; [lia|unfold c; lia|lia|].
    destruct (div_exact ((b0 - 224) * 64 + (b1 - 128)) 64 (b0 - 224) (b1 - 128)) as [D1 M1]; [lia|lia|lia|].
    assert (D2 : c / 4096 = b0 - 224) by (apply (div_exact c 4096 (b0 - 224) ((b1 - 128) * 64 + (b2 - 128))); [lia|unfold c; lia|lia]).
    unfold enc1. rewrite (proj2 (N.ltb_ge c 128)) by (unfold c; lia). rewrite (proj2 (N.ltb_ge c 2048)) by (unfold c; lia).
    replace ((55296 <=? c) && (c <=? 57343)) with false.
    2: { symmetry. apply andb_false_iff. rewrite !N.leb_gt. unfold c. lia. }
    rewrite (proj2 (N.ltb_lt c 65536)) by (unfold c; lia). rewrite D2, D, M, M1. cbn [app]. repeat f_equal; lia. }
  destruct ((240 <=? b0) && (b0 <=? 244)) eqn:E3; [|exfalso; apply H; left; reflexivity].
  destruct r0 as [|b1 r1]; [exfalso; apply H; left; reflexivity|]. destruct (ok2_4 b0 b1) eqn:C1; [|exfalso; apply H; left; reflexivity].
  destruct r1 as [|b2 r2]; [exfalso; apply H; left; reflexivity|]. destruct (is_cont b2) eqn:C2; [|exfalso; apply H; left; reflexivity].
  destruct r2 as [|b3 r3]; [exfalso; apply H; left; reflexivity|]. destruct (is_cont b3) eqn:C5; [|exfalso; apply H; left; reflexivity].
  cbn [utf8_enc]. rewrite IH; [|cbn in Hl; lia|intro Hi; apply H; right; exact Hi].
  unfold ok2_4, is_cont in *. rewrite !andb_true_iff, !N.leb_le in *. destruct C1 as [[C1 C3] C4].
  assert (L : b0 = 240 -> 144 <= b1) by (intros ->; apply N.leb_le; exact C3).
  assert (S : b0 = 244 -> b1 < 144) by (intros ->; apply N.ltb_lt; exact C4). clear C3 C4.
  set (c := (b0 - 240) * 262144 + (b1 - 128) * 4096 + (b2 - 128) * 64 + (b3 - 128)) in *.
  destruct (div_exact c 64 ((b0 - 240) * 4096 + (b1 - 128) * 64 + (b2 - 128)) (b3 - 128)) as [D M]; [lia|unfold c; lia|lia|].
  destruct (div_exact ((b0 - 240) * 4096 + (b1 - 128) * 64 + (b2 - 128)) 64 ((b0 - 240) * 64 + (b1 - 128)) (b2 - 128)) as [D1 M1]; [lia|lia|lia|].
  destruct (div_exact c 4096 ((b0 - 240) * 64 + (b1 - 128)) ((b2 - 128) * 64 + (b3 - 128))) as [D3 _]; [lia|unfold c; lia|lia|].
  destruct (div_exact ((b0 - 240) * 64 + (b1 - 128)) 64 (b0 - 240) (b1 - 128)) as [D4 M4]; [lia|lia|lia|].
  destruct (div_exact c 262144 (b0 - 240) ((b1 - 128) * 4096 + (b2 - 128) * 64 + (b3 - 128))) as [D2 _]; [lia|unfold c; lia|lia|].
  unfold enc1. rewrite (proj2 (N.ltb_ge c 128)) by (unfold c; lia). rewrite (proj2 (N.ltb_ge c 2048)) by (unfold c; lia).
  replace ((55296 <=? c) && (c <=? 57343)) with false.
  2: { symmetry. apply andb_false_iff. rewrite !N.leb_gt. unfold c. lia. }
  rewrite (proj2 (N.ltb_ge c 65536)) by (unfold c; lia). rewrite (proj2 (N.ltb_lt c 1114112)) by (unfold c; lia).
  rewrite D2, D3, D, M, M1, M4. cbn [app]. repeat f_equal; lia.
Qed.

Definition is_ascii (c : N) : bool := c <? 128.
Lemma decoded : forall n b, (length b <= n)%nat -> Forall scalar (utf8_decode b) /\ filter is_ascii (utf8_decode b) = filter is_ascii b.
Proof.
  assert (R : forall l k, Forall scalar l /\ filter is_ascii l = filter is_ascii k -> Forall scalar (REPL :: l) /\ filter is_ascii (REPL :: l) = filter is_ascii k).
  { intros l k [H1 H2]. split; [constructor; [unfold scalar, REPL; lia|assumption]|exact H2]. }
  assert (O : forall x l, 128 <= x -> filter is_ascii (x :: l) = filter is_ascii l).
  { intros x l Hx. cbn [filter]. unfold is_ascii at 1. rewrite (proj2 (N.ltb_ge _ _) Hx). reflexivity. }
  induction n as [|n IH]; intros [|b0 r0] Hl; [split; constructor|cbn in Hl; lia|split; constructor|]. cbn [length] in Hl.
  cbn [utf8_decode]. destruct (b0 <? 128) eqn:E0.
  { destruct (IH r0) as [I1 I2]; [lia|]. apply N.ltb_lt in E0. split; [constructor; [unfold scalar; lia|exact I1]|cbn [filter]; rewrite I2; reflexivity]. }
  apply N.ltb_ge in E0. rewrite (O b0) by assumption.
  destruct ((194 <=? b0) && (b0 <=? 223)) eqn:E1.
  { destruct r0 as [|b1 r1]; [apply (R [] []); split; constructor|]. destruct (is_cont b1) eqn:C1; [|apply R, IH; lia].
    cbn [length] in Hl. destruct (IH r1) as [I1 I2]; [lia|]. unfold is_cont in *. rewrite andb_true_iff, !N.leb_le in *.
    rewrite (O b1), O by lia. split; [constructor; [unfold scalar; lia|exact I1]|exact I2]. }
  destruct ((224 <=? b0) && (b0 <=? 239)) eqn:E2.
  { destruct r0 as [|b1 r1]; [apply (R [] []); split; constructor|]. destruct (ok2_3 b0 b1) eqn:C1; [|apply R, IH; lia].
    unfold ok2_3, is_cont in C1. rewrite !andb_true_iff, !N.leb_le in *. destruct C1 as [[C1 C3] C4].
    assert (L : b0 = 224 -> 160 <= b1) by (intros ->; apply N.leb_le; exact C3).
    assert (S : b0 = 237 -> b1 < 160) by (intros ->; apply N.ltb_lt; exact C4). clear C3 C4. rewrite (O b1) by lia. cbn [length] in Hl.
    destruct r1 as [|b2 r2]; [apply (R [] []); split; constructor|]. destruct (is_cont b2) eqn:C2; [|apply R, IH; lia].
    cbn [length] in Hl. destruct (IH r2) as [I1 I2]; [lia|]. unfold is_cont in *. rewrite !andb_true_iff, !N.leb_le in *.
    rewrite (O b2), O by lia. split; [constructor; [unfold scalar; lia|exact I1]|exact I2]. }
  destruct ((240 <=? b0) && (b0 <=? 244)) eqn:E3; [|apply R, IH; lia].
  destruct r0 as [|b1 r1]; [apply (R [] []); split; constructor|]. destruct (ok2_4 b0 b1) eqn:C1; [|apply R, IH; lia].
  unfold ok2_4, is_cont in C1. rewrite !andb_true_iff, !N.leb_le in *. destruct C1 as [[C1 C3] C4].
  assert (L : b0 = 240 -> 144 <= b1) by (intros ->; apply N.leb_le; exact C3).
  assert (S : b0 = 244 -> b1 < 144) by (intros ->; apply N.ltb_lt; exact C4). clear C3 C4. rewrite (O b1) by lia. cbn [length] in Hl.
  destruct r1 as [|b2 r2]; [apply (R [] []); split; constructor|]. destruct (is_cont b2) eqn:C2; [|apply R, IH; lia].
  unfold is_cont in C2. rewrite !andb_true_iff, !N.leb_le in C2. rewrite (O b2) by lia. cbn [length] in Hl.
  destruct r2 as [|b3 r3]; [apply (R [] []); split; constructor|]. destruct (is_cont b3) eqn:C5; [|apply R, IH; lia].
  cbn [length] in Hl. destruct (IH r3) as [I1 I2]; [lia|]. unfold is_cont in *. rewrite !andb_true_iff, !N.leb_le in *.
  rewrite (O b3), O by lia. split; [constructor; [unfold scalar; lia|exact I1]|exact I2].
Qed.
Close Scope N_scope.
(** Any bytes are decoded to a text that can be stored again; the ASCII characters
    (digits, blanks, line breaks) are those of the bytes, and without a replacement
    character the text stands for exactly these bytes. *)
Theorem C17_decoded : forall b, Forall scalar (utf8_decode b) /\
  filter (fun c => c <? 128)%N (utf8_decode b) = filter (fun c => c <? 128)%N b /\
  (~ In 65533%N (utf8_decode b) -> utf8_encode (utf8_decode b) = Ok b).
Proof.
  intro b. destruct (decoded (length b) b (le_n _)) as [H1 H2]. split; [exact H1|]. split; [exact H2|].
  intro H. unfold utf8_encode. rewrite (decode_faithful (length b)); [reflexivity|apply le_n|exact H].
Qed.
Print Assumptions C17_decoded.
Example C17_example : Forall scalar [72; 228; 8364; 128512]%N /\
  utf8_encode [72; 228; 8364; 128512]%N = Ok [72; 195; 164; 226; 130; 172; 240; 159; 152; 128]%N /\ ~ Forall scalar [55296%N] /\
  utf8_decode [237; 160; 128; 49; 226; 130; 50; 195; 164]%N = [65533; 65533; 65533; 49; 65533; 50; 228]%N /\ ~ In 65533%N (utf8_decode [72; 195; 164]%N).
Proof.
  split; [repeat constructor; unfold scalar; lia|]. split; [reflexivity|]. split; [|split; [reflexivity|intros [H|[H|[]]]; discriminate H]]. intro H. inversion H; subst. unfold scalar in *. lia.
Qed.

(* ------------------------------------------------------------------ *)
(** C18 *)

(** [column line widths i] is the stripped text between the i-th column borders
    of the line as it is (no padding). *)
Definition column_value (t : Z) (text : str) (v : option pyval) : Prop :=
  (t = (-1)%Z /\ v = None) \/
  (t = 1%Z /\ v = Some (VStr text)) \/
  (t = 2%Z /\ exists z, py_int text = Ok z /\ v = Some (VInt z)) \/
  (t <> (-1)%Z /\ t <> 1%Z /\ t <> 2%Z /\ exists f, py_float text = Ok f /\ v = Some (VFloat f)).
Definition unreadable (t : Z) (text : str) : Prop :=
  (t = 2%Z /\ py_int text = Err ValueError) \/ (t <> (-1)%Z /\ t <> 1%Z /\ t <> 2%Z /\ py_float text = Err ValueError).

Lemma column_value_spec : forall t s,
  match field_val t s with Ok v => column_value t s v | Err _ => unreadable t s end.
Proof.
  intros t s. unfold field_val, column_value, unreadable.
  destruct (Z.eqb_spec t (-1)); [auto|]. destruct (Z.eqb_spec t 1); [auto|]. destruct (Z.eqb_spec t 2).
  - destruct (py_int s) as [z|ex] eqn:E; cbn [rbind]; [right; right; left; eauto|]. left. split; [assumption|].
    unfold py_int in E. destruct (int_core _); cbn in E; congruence.
  - destruct (py_float s) as [z|ex] eqn:E; cbn [rbind]; [right; right; right; eauto 6|]. right. repeat split; try assumption.
    unfold py_float in E. destruct (float_core _); cbn in E; congruence.
Qed.

Theorem C18_header_line : forall line minv widths types names,
  length widths <= length names -> length widths <= length types -> minv <= length widths -> NoDup names ->
  (* a mandatory field that is not a number *)
  ((exists i t, i < minv /\ nth_error types i = Some t /\ unreadable t (column line widths i)) ->
     parse_header_line line minv widths types names = Err ValueError) /\
  (* otherwise *)
  ((forall i t, i < minv -> nth_error types i = Some t -> ~ unreadable t (column line widths i)) ->
     exists d, parse_header_line line minv widths types names = Ok d /\
       (forall i k t, i < length widths -> nth_error names i = Some k -> nth_error types i = Some t ->
          column_value t (column line widths i) (dget d (KS k)) \/
          (minv <= i /\ unreadable t (column line widths i) /\
           dget d (KS k) = Some (if (t =? 2)%Z then VInt 0 else VFloat f_zero))) /\
       (forall k, ~ In k (firstn (length widths) names) -> dget d (KS k) = None)).
Proof.
  intros line minv widths types names Hn Ht Hm Hnd. split.
  - intros (i & t & Hi & Hti & Hu). assert (Hs := column_value_spec t (column line widths i)).
    destruct (field_val t (column line widths i)) as [v|e] eqn:E.
    + exfalso. unfold column_value, unreadable in *.
      destruct Hs as [[-> _]|[[-> _]|[[-> (z & Hz & _)]|(? & ? & ? & f & Hz & _)]]];
        destruct Hu as [[? Hu]|(? & ? & ? & Hu)]; try lia; try contradiction; try congruence.
    + eapply header_err; eauto.
  - intros Hok. destruct (header_ok line minv widths types names Hn Ht Hm Hnd) as (d & Hd & Hg & Hk).
    { intros i t Hi Hti. assert (Hs := column_value_spec t (column line widths i)).
      destruct (field_val t (column line widths i)) as [v|e]; [eauto|]. exfalso. eapply Hok; eauto. }
    exists d. split; [assumption|]. split; [|assumption].
    intros i k t Hi Hki Hti. rewrite (Hg i k t Hi Hki Hti). unfold opt_val.
    assert (Hs := column_value_spec t (column line widths i)).
    destruct (field_val t (column line widths i)) as [v|e] eqn:E; [left; assumption|]. right.
    split. { destruct (le_lt_dec minv i); [assumption|]. exfalso. eapply Hok; eauto. }
    split; [assumption|]. unfold field_default. destruct Hs as [[-> _]|(? & ? & ? & _)]; [reflexivity|].
    destruct (Z.eqb_spec t 1); [contradiction|]. reflexivity.
Qed.
Print Assumptions C18_header_line.
(** Missing columns read as if the line were padded with blanks. *)
Theorem C18_padding : forall line n minv widths types names,
  length widths <= length names -> length widths <= length types -> minv <= length widths ->
  parse_header_line (line ++ repeat 32%N n) minv widths types names = parse_header_line line minv widths types names.
Proof.
  intros line n minv widths types names Hn Ht Hm. rewrite !parse_header_unfold by assumption.
  replace (cut_fields (extend80 (line ++ repeat 32%N n)) widths) with (cut_fields (extend80 line) widths); [reflexivity|].
  change 32%N with blank. destruct (extend80_blanks line) as [a ->]. destruct (extend80_blanks (line ++ repeat blank n)) as [b ->].
  rewrite <- app_assoc, <- repeat_app. clear. generalize (n + b). intro m. clear n b.
  revert line a m. induction widths as [|w r IH]; intros line a m; cbn [cut_fields]; [reflexivity|].
  rewrite !firstn_app, !firstn_repeat, !strip_blanks_tail. rewrite !skipn_app, !skipn_repeat. f_equal. apply IH.
Qed.
Print Assumptions C18_padding.
Example C18_example :
  parse_header_line (lit "        12hello     ") 1 [10; 5; 5; 8] [2; 1; 2; 3]%Z ["a"; "b"; "c"; "d"]
  = Ok [(KS "a", VInt 12); (KS "b", VStr (lit "hello")); (KS "c", VInt 0); (KS "d", VFloat f_zero)].
Proof. vm_compute. reflexivity. Qed.

(* ------------------------------------------------------------------ *)
(** C19 *)
Theorem C19_opt_fields : forall d defs,
  (forall k, dget (opt_fields d defs) k = match dget d k with Some v => Some v | None => dget defs k end) /\
  (exists new, opt_fields d defs = d ++ new /\ forall kv, In kv new -> In kv defs /\ dget d (fst kv) = None) /\
  opt_fields (opt_fields d defs) defs = opt_fields d defs.
Proof.
  intros d defs. split; [intro; apply opt_fields_get|]. split.
  - exists (missing d defs). split; [apply opt_fields_app|apply missing_incl].
  - rewrite opt_fields_app at 1. rewrite missing_none; [apply app_nil_r|]. intros k Hk. rewrite opt_fields_get.
    apply dget_In_keys in Hk. destruct (dget d k); [discriminate|assumption].
Qed.
Print Assumptions C19_opt_fields.
Example C19_example : opt_fields [(KS "a", VNone); (KS "b", VInt 1)] [(KS "b", VInt 2); (KS "c", VInt 3); (KS "a", VInt 4)]
  = [(KS "a", VNone); (KS "b", VInt 1); (KS "c", VInt 3)].
Proof. reflexivity. Qed.

(* ------------------------------------------------------------------ *)
(** C20 *)
Theorem C20_check_dict_for_none : forall d,
  check_dict_for_none d = filter (fun kv => match snd kv with VNone => false | _ => true end) d.
Proof.
  induction d as [|[k v] d IH]; [reflexivity|]. cbn [check_dict_for_none filter snd]. rewrite IH. destruct v; reflexivity.
Qed.
Print Assumptions C20_check_dict_for_none.
Example C20_example : check_dict_for_none [(KS "a", VNone); (KS "b", VInt 0)] = [(KS "b", VInt 0)].
Proof. reflexivity. Qed.
