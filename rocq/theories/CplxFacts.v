(** The complex number built from its two parts, [a + 1.j * b]. *)
From Verif Require Import PyBase PyNum PyVal Facts QFacts FloatFacts.
From Coq Require Import Lia SpecFloat.
Open Scope Z_scope.

Lemma fexp_canon : forall m e, canon m e -> fexp prec emax (Zpos (digits2_pos m) + e) = e /\ e <= emax - prec.
Proof.
  intros m e H. apply (proj2 (valid_canon false m e)) in H. unfold f_valid, valid_binary, bounded, canonical_mantissa in H.
  apply andb_true_iff in H as [H1 H2]. apply Zeq_is_eq_bool in H1. apply Z.leb_le in H2. split; [exact H1|exact H2].
Qed.
Lemma digits2_xO : forall m n, digits2_pos (Nat.iter n xO m) = Pos.of_nat (Pos.to_nat (digits2_pos m) + n).
Proof.
  intros m n. induction n as [|n IH].
  - cbn. rewrite Nat.add_0_r, Pos2Nat.id. reflexivity.
  - change (digits2_pos (Nat.iter (S n) xO m)) with (Pos.succ (digits2_pos (Nat.iter n xO m))). rewrite IH. lia.
Qed.
Lemma mul_pow52 : forall m, (2 ^ 52 * m)%positive = Nat.iter 52 xO m.
Proof. reflexivity. Qed.

Lemma f_mul_one : forall f, f_valid f = true -> f_finite f = true -> f_mul f_one f = f.
Proof.
  intros [s|s| |s m e] Hv Hf; try discriminate; [destruct s; reflexivity|].
  apply valid_canon in Hv. destruct (fexp_canon m e Hv) as [H1 H2].
  unfold f_mul, SFmul, f_one. replace (xorb false s) with s by (destruct s; reflexivity). unfold binary_round_aux.
  assert (E1 : shr_fexp prec emax (Zpos (2 ^ 52 * m)) (-52 + e) loc_Exact = ({| shr_m := Zpos m; shr_r := false; shr_s := false |}, e)).
  { unfold shr_fexp. unfold Zdigits2.
    assert (Ed : Zpos (digits2_pos (2 ^ 52 * m)) = Zpos (digits2_pos m) + 52) by (rewrite mul_pow52, digits2_xO; lia).
    rewrite Ed. replace (Zpos (digits2_pos m) + 52 + (-52 + e)) with (Zpos (digits2_pos m) + e) by lia. rewrite H1.
    replace (e - (-52 + e)) with 52 by lia. cbn [shr shr_record_of_loc]. replace (-52 + e + 52) with e by lia. f_equal. }
  rewrite E1. cbn [loc_of_shr_record shr_m round_nearest_even].
  assert (E2 : shr_fexp prec emax (Zpos m) e loc_Exact = ({| shr_m := Zpos m; shr_r := false; shr_s := false |}, e)).
  { unfold shr_fexp. unfold Zdigits2. rewrite H1, Z.sub_diag. reflexivity. }
  cbn [shr_r shr_s]. rewrite E2. cbn [shr_m]. rewrite (proj2 (Z.leb_le e (emax - prec))) by assumption. reflexivity.
Qed.

(** The parts are kept, up to the sign of zeros. *)
Definition re_part (a b : float) : float :=
  match a with S754_zero s => S754_zero (s && fsign b) | _ => a end.
Definition im_part (b : float) : float := match b with S754_zero _ => S754_zero false | _ => b end.
Lemma cjoin_parts : forall a b, f_finite a = true -> f_valid b = true -> f_finite b = true -> cjoin a b = (re_part a b, im_part b).
Proof.
  intros a b Ha Vb Hb. unfold cjoin. rewrite (f_mul_one b) by assumption.
  destruct b as [t|t| |t m e]; try discriminate; (destruct a as [s|s| |s n k]; try discriminate); try destruct s; destruct t; reflexivity.
Qed.
Lemma vcjoin_parts : forall a b, f_finite a = true -> f_valid b = true -> f_finite b = true -> vcjoin a b = VCplx (re_part a b) (im_part b).
Proof. intros a b H1 H2 H3. unfold vcjoin. rewrite cjoin_parts by assumption. reflexivity. Qed.
