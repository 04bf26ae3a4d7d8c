(** C70, in general: every single precision set and every header without a date. *)
From Coq Require Import String List NArith ZArith Bool Lia.
Import ListNotations.
From Coq Require Import SpecFloat.
From Verif Require Import PyBase PyNum PyVal Utf8 Tools DsNodes DsHeaders Ds55 Ds58 Uff Facts FloatFacts DecFacts FloatText CplxFacts DictFacts Scan Container ContainerThms Append
  Utf8Facts Lines Stored Cells Rows RtHeads RtNodal RtFun RtFunSet Witness PropHeads PropFun PropCaller.
From Coq Require Import Lia.
Open Scope string_scope.
Open Scope list_scope.
Open Scope nat_scope.

(** Sets that read differently are stored differently. *)
Lemma stored_differ : forall c c' m fd fd' d d' b b' out out' file u, stored c m fd d b -> stored c' m fd' d' b' ->
  reads b true out -> reads b' true out' -> out <> out' -> appendable (kept m file) ->
  w_file (write_set c m fd file u d) <> w_file (write_set c' m fd' file u d').
Proof.
  intros c c' m fd fd' d d' b b' out out' file u S S' R R' N A E.
  destruct (stored_write c m fd d b file u S A) as [e W]. destruct (stored_write c' m fd' d' b' file u S' A) as [e' W'].
  rewrite W, W' in E. cbn [w_file] in E. injection E as E. apply N.
  assert (X := set_at_new (kept m file) b true A (proj1 S)). assert (X' := set_at_new (kept m file) b' true A (proj1 S')).
  rewrite E in X. rewrite X in X'. unfold reads in R, R'. rewrite R, R' in X'. injection X' as X'. exact X'.
Qed.
(** The same set in double precision. *)
Definition doubled (r : func58) : func58 :=
  {| q_ids := q_ids r; q_type := q_type r; q_id := q_id r; q_ver := q_ver r; q_lc := q_lc r; q_rsp := q_rsp r; q_rspn := q_rspn r; q_rspd := q_rspd r;
     q_ref := q_ref r; q_refn := q_refn r; q_refd := q_refd r; q_cplx := q_cplx r; q_dbl := true; q_even := q_even r; q_min := q_min r; q_inc := q_inc r; q_zval := q_zval r;
     q_abs := q_abs r; q_ord := q_ord r; q_den := q_den r; q_zax := q_zax r; q_pts := q_pts r |}.
Lemma doubled_repr : forall bin d r, repr58 false bin d r -> repr58 true bin d (doubled r).
Proof.
  intros bin d r (H1 & H2 & H3 & H4 & H5 & H6 & H7 & H8 & H9 & H10 & H11 & H12 & _ & H14).
  do 12 (split; [assumption|]). split; [reflexivity|exact H14].
Qed.
(** Every single precision function as text: once it was written with
    [force_double=True], a call with [force_double=False] stores another file
    than it would have stored. *)
Theorem C70_precision_refuted : forall c c' c'' m m' file file' u u' d r,
  repr58 false false d r -> wf58 r -> q_dbl r = false -> appendable (kept m' file') ->
  w_exc (write_set c'' m' false file' u' d) = None /\
  w_file (write_set c' m' false file' u' (w_dict (write_set c m true file u d))) <> w_file (write_set c'' m' false file' u' d).
Proof.
  intros c c' c'' m m' file file' u u' d r R W Hs A.
  destruct (text_set_block _ _ _ _ _ _ _ _ _ (set58 c'' m' false true d r R W)) as (b & S & Rd & _).
  destruct (text_set_block _ _ _ _ _ _ _ _ _ (set58 c m' true true d (doubled r) (doubled_repr _ _ _ R) W)) as (b' & S' & Rd' & _).
  split; [destruct (stored_write c'' m' false d b file' u' S A) as [e ->]; reflexivity|].
  rewrite (C70_stays c c' m m' file file' u u' d). eapply stored_differ; [exact S'|exact S|exact Rd'|exact Rd| |exact A].
  intro E. assert (Hi := repr58_ids _ _ _ _ R). assert (X := f_equal (fun o => dget o (KS "ord_data_type")) E). cbv beta in X.
  assert (G : forall r, length (q_ids r) = 5 -> dget (read58 false true r) (KS "ord_data_type") = Some (VInt (odt_of (q_cplx r) (q_dbl r)))).
  { clear. intros r Hi. unfold read58, base58, head_out. destruct (q_ids r) as [|s1 [|s2 [|s3 [|s4 [|s5 [|]]]]]]; try discriminate. reflexivity. }
  rewrite !G in X by assumption. cbn [doubled q_cplx q_dbl] in X. rewrite Hs in X. destruct (q_cplx r); discriminate.
Qed.
Print Assumptions C70_precision_refuted.
(** Every header without date: written again at a later time it still bears the
    date of the first writing. *)
Theorem C70_date_refuted : forall c c' m m' fd file file' u u' d h h',
  repr151 c d h -> wf151 h -> repr151 c' d h' -> wf151 h' -> dget d (KS "date_file_written") = None ->
  strip (now_date c) <> strip (now_date c') -> appendable (kept m' file') ->
  w_exc (write_set c' m' fd file' u' d) = None /\
  w_file (write_set c' m' fd file' u' (w_dict (write_set c m fd file u d))) <> w_file (write_set c' m' fd file' u' d).
Proof.
  intros c c' m m' fd file file' u u' d h h' R W R' W' Hn Hd A.
  destruct (text_set_block _ _ _ _ _ _ _ _ _ (set151 c m' fd true d h R W)) as (b & S & Rd & _).
  destruct (text_set_block _ _ _ _ _ _ _ _ _ (set151 c' m' fd true d h' R' W')) as (b' & S' & Rd' & _).
  split; [destruct (stored_write c' m' fd d b' file' u' S' A) as [e ->]; reflexivity|].
  rewrite (C69_again c c' m m' fd fd) by auto. cbv zeta. cbn [w_file]. eapply stored_differ; [exact S|exact S'|exact Rd|exact Rd'| |exact A].
  intro E. assert (X := f_equal (fun o => dget o (KS "date_file_written")) E). cbv beta in X.
  change (Some (VStr (strip (a_date3 h))) = Some (VStr (strip (a_date3 h')))) in X. injection X as X.
  assert (G : forall c h, repr151 c d h -> a_date3 h = now_date c).
  { clear - Hn. intros c h (_ & _ & _ & _ & _ & _ & _ & _ & _ & _ & [(v & E & _)|[_ E]] & _); [rewrite Hn in E; discriminate|exact E]. }
  apply Hd. rewrite <- (G _ _ R), <- (G _ _ R'). exact X.
Qed.
Print Assumptions C70_date_refuted.
(** Such a set and such a header. *)
Example C70_precision_example : repr58 false false d58_even r58_even /\ wf58 r58_even /\ q_dbl r58_even = false /\ appendable (kept Add None).
Proof. split; [apply C27_example_even|]. split; [apply C27_example_even|]. split; [reflexivity|apply appendable_nil]. Qed.
Definition h151_later : head151 := Eval vm_compute in
  {| a_model := lit "Model file name"; a_desc := lit " Model file description "; a_app := lit "Program which created DB"; a_prog := lit "OpenModal";
     a_date1 := lit "27-Jan-16"; a_time1 := lit "14:38:15"; a_date2 := now_date later; a_time2 := now_time later;
     a_date3 := now_date later; a_time3 := now_time later; a_v1 := 1; a_v2 := -2; a_ft := 0 |}.
Example C70_date_example : repr151 noclock d151 h151 /\ wf151 h151 /\ repr151 later d151 h151_later /\ wf151 h151_later /\
  dget d151 (KS "date_file_written") = None /\ strip (now_date noclock) <> strip (now_date later) /\ appendable (kept Add None).
Proof.
  split; [apply C36_example|]. split; [apply C36_example|]. split; [unfold repr151; wit|].
  split; [|split; [reflexivity|split; [vm_compute; discriminate|apply appendable_nil]]].
  unfold wf151, h151_later, short_text. cbn [a_model a_desc a_app a_prog a_date1 a_time1 a_date2 a_time2 a_date3 a_time3 a_v1 a_v2 a_ft].
  wit; cbn; lia.
Qed.
