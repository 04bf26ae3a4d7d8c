(** C72 for type 58 when the data is a list, or missing. *)
From Coq Require Import String List NArith ZArith Bool QArith Lia.
Import ListNotations.
From Verif Require Import PyBase PyNum PyVal Utf8 Tools Facts IntFacts QFacts FloatFacts FloatText DictFacts DsNodes DsHeaders DsGroups Ds55 Ds58 Ds2414 Uff
  Container Append Utf8Facts Lines Cells PropNumeral Accept Witness PropCaller PropAccept PropAccept2 PropAccept3 PropAccept4 PropAccept5 PropKinds.
From Coq Require Import Lia.
Open Scope string_scope.
Open Scope list_scope.
Open Scope nat_scope.

Lemma dput_over : forall d k v w, dput (dput d k v) k w = dput d k w.
Proof.
  intros d k v w. induction d as [|[k0 v0] d IH]; cbn [dput].
  - destruct (key_eqb_spec k k); [reflexivity|congruence].
  - destruct (key_eqb k k0) eqn:E; cbn [dput]; rewrite E; [reflexivity|]. rewrite IH. reflexivity.
Qed.
Lemma function_ok_data : forall fd d v dt l, function_ok fd (dput d (KS "data") v) dt l <-> function_ok fd d dt l.
Proof.
  intros fd d v dt l. set (d2 := dput d (KS "data") v).
  assert (G : forall k, k <> "data" -> dget d2 (KS k) = dget d (KS k)).
  { intros k Hk. unfold d2. rewrite dget_dput. destruct (key_eqb_spec (KS k) (KS "data")); [congruence|reflexivity]. }
  assert (F : Forall (field_ok d2) head58 <-> Forall (field_ok d) head58).
  { assert (X : forall f, In f head58 -> (field_ok d2 f <-> field_ok d f)).
    { intros f Hf. unfold field_ok. rewrite G; [reflexivity|]. intro Q.
      assert (K : existsb (fun f : string * kind * need => String.eqb (fst (fst f)) "data") head58 = false) by reflexivity.
      assert (K' : existsb (fun f : string * kind * need => String.eqb (fst (fst f)) "data") head58 = true) by (apply existsb_exists; exists f; split; [exact Hf|apply String.eqb_eq; exact Q]).
      rewrite K in K'. discriminate. }
    rewrite !Forall_forall. split; intros Q f Hf; apply X; auto. }
  unfold function_ok, one_of, flag. rewrite F. rewrite !G by discriminate. reflexivity.
Qed.
(** A list of numbers is taken as the array that numpy makes of it. *)
Theorem C72_58_list : forall c m fd file u d l dt l', dget d (KS "type") = Some (VInt 58) -> dget d (KS "data") = Some (VList l) -> array_of l dt l' ->
  (w_exc (write_set c m fd file u d) = None <-> function_ok fd d dt l').
Proof.
  intros c m fd file u d l dt l' Ht Hd Ha. apply C74_array in Ha. set (d2 := dput d (KS "data") (VArr dt l')).
  assert (T2 : dget d2 (KS "type") = Some (VInt 58)) by (unfold d2; rewrite dget_dput; exact Ht).
  assert (D2 : dget d2 (KS "data") = Some (VArr dt l')) by (unfold d2; rewrite dget_dput; reflexivity).
  rewrite <- (function_ok_data fd d (VArr dt l')). fold d2. rewrite <- (C72_58 c m fd file u d2 dt l' T2 D2).
  assert (E : w_exc (write_set c m fd file u d) = w_exc (write_set c m fd file u d2)); [|rewrite E; reflexivity].
  unfold write_set. rewrite Ht, Hd, T2, D2.
  assert (E1 : np_nan_to_num (VList l) = Ok (VArr dt (map nan_to_num_elt l'))) by (unfold np_nan_to_num; rewrite Ha; reflexivity).
  rewrite E1. cbn [np_nan_to_num np_asarray rbind fst snd]. unfold d2. rewrite dput_over. reflexivity.
Qed.
Print Assumptions C72_58_list.
(** Without data nothing is written. *)
Theorem C72_58_missing : forall c m fd file u d, dget d (KS "type") = Some (VInt 58) -> dget d (KS "data") = None ->
  w_exc (write_set c m fd file u d) <> None /\ w_file (write_set c m fd file u d) = Some (match m, file with Add, Some b => b | _, _ => [] end).
Proof.
  intros c m fd file u d Ht Hd. unfold write_set. rewrite Ht, Hd. set (ov := match m with Overwrite => true | Add => false end).
  change (write_dispatch c m fd (VInt 58) d) with (write58 ov fd d).
  assert (E : exists dd e, write58 ov fd d = {| wp_dict := dd; wp_items := [WTxt (Err e)]; wp_wrap := wrap_write "58" |}).
  { unfold write58. cbv zeta. destruct (ix d "func_type") as [ft|e]; [|eauto]. destruct (negb _); [eauto|].
    assert (N : ix (opt_fields d defaults58) "data" = Err (KeyError "data")) by (unfold ix; rewrite opt_fields_get, Hd; reflexivity).
    unfold prepare58_write. rewrite N. cbn [rbind]. eauto. }
  destruct E as (dd & e & ->). cbn [wp_items run_items w_exc w_file]. split; [discriminate|reflexivity].
Qed.
Print Assumptions C72_58_missing.
(** Lists of floats, of integers and floats, of texts; and uneven data with too
    few abscissas. *)
Example C72_58_list_example : map (fun d => refused (with_type 58 d))
  [set "data" (VList [vf 1; vf 2; vf 3]) d58_ok; set "data" (VList [VInt 1; vf 2; VBool true]) d58_ok; set "data" (VList [vf 1; VCplx (float_of_Z 1) (float_of_Z 2)]) d58_ok;
   except "data" d58_ok] = [false; false; true; true]
  /\ array_of [VInt 1; vf 2; VBool true] DFloat [vf 1; vf 2; vf 1].
Proof. split; [vm_compute; reflexivity|]. apply C74_array. vm_compute. reflexivity. Qed.
