(** C80: the calls that write and read sets raise only the library's own
    exceptions.  A message about a set stands for the first dictionary that was
    refused, and names the type of that dictionary. *)
From Coq Require Import String List NArith ZArith Bool Lia.
Import ListNotations.
From Verif Require Import PyBase PyNum PyVal Utf8 Facts Tools DictFacts DsNodes Ds55 Ds58 DsHeaders DsGroups Ds2414 Uff Container Accept PropMissing.
From Coq Require Import Lia.
Open Scope string_scope.
Open Scope list_scope.
Open Scope nat_scope.

(** The types with a writer and their numbers in messages (pyuff.py:444-476). *)
Definition written_types : list (Z * string) :=
  [(15, "15"); (18, "18"); (55, "55"); (58, "58"); (82, "82"); (151, "151"); (164, "164"); (1858, "1858"); (2400, "2400");
   (2411, "2411"); (2412, "2412"); (2414, "2414"); (2420, "2420"); (2429, "2429"); (2467, "2467")]%Z.
Definition refused_message (no : string) : exc := PyException ("Error writing data-set #" ++ no)%string.

(** What is said about a dictionary: it has no type; or the message carries the
    number of its type, and if it names a key, that type requires the key and the
    dictionary does not have it. *)
Inductive said_of (d : dict) : exc -> Prop :=
| said_no_type : dget d (KS "type") = None -> said_of d (PyException "Data-set's dictionary is missing the required 'type' key")
| said_refused : forall ty n no, dget d (KS "type") = Some ty -> In (n, no) written_types -> py_eqZ ty n = true -> said_of d (refused_message no)
| said_missing : forall ty n no req k, dget d (KS "type") = Some ty -> In (n, (no, req)) required -> py_eqZ ty n = true ->
    In k req -> dget d (KS k) = None -> said_of d (missing_message k no).

(* ------------------------------------------------------------------ *)
(** ** Cleaning the data *)

Definition only_unmodelled {A} (r : result A) : Prop := forall e, r = Err e -> e = Unmodelled.
Lemma unm_rmap : forall A B (f : A -> result B) l, Forall (fun a => only_unmodelled (f a)) l -> only_unmodelled (rmap f l).
Proof.
  intros A B f l F. induction F as [|a l Ha _ IH]; intros e E; [discriminate|].
  unfold rmap in *. cbn [map rseq] in E. destruct (f a) as [b|x]; cbn [rbind] in E.
  - destruct (rseq (map f l)) as [t|x]; [discriminate|]. cbn [rbind] in E. injection E as ->. exact (IH e eq_refl).
  - injection E as ->. exact (Ha e eq_refl).
Qed.
Lemma unm_float : forall z, (- 2 ^ 63 <= z < 2 ^ 63)%Z -> exists f, py_float_of_int z = Ok f.
Proof.
  intros z B. apply int_real. eapply Z.le_lt_trans with (m := (2 ^ 63)%Z); [|vm_compute; reflexivity].
  revert B. generalize (2 ^ 63)%Z. intros. lia.
Qed.
Lemma unm_cast : forall dt v, in_int64 v = true -> only_unmodelled (cast dt v).
Proof.
  intros dt v B e E.
  destruct dt, v as [|b|z|f|a b|s|l|dt' l|dt' l|d]; cbn [cast] in E; try discriminate; try (injection E as <-; reflexivity);
    (cbn [in_int64] in B; apply andb_true_iff in B as [B1 B2]; apply Z.leb_le in B1; apply Z.ltb_lt in B2;
     destruct (unm_float z (conj B1 B2)) as [g G]; rewrite G in E; discriminate).
Qed.
Lemma unm_asarray : forall v, only_unmodelled (np_asarray v).
Proof.
  intros v e E. destruct v as [| | | | | |l| | |]; cbn [np_asarray] in E; try discriminate; try (injection E as <-; reflexivity).
  destruct l as [|a l]; [discriminate|]. destruct (forallb in_int64 (a :: l)) eqn:B; [|injection E as <-; reflexivity].
  destruct (list_dtype (a :: l)) as [dt|]; [|injection E as <-; reflexivity].
  destruct (rmap (cast dt) (a :: l)) as [t|x] eqn:R; [discriminate|]. cbn [rbind] in E. injection E as ->.
  refine (unm_rmap _ _ _ _ _ e R). apply Forall_forall. intros v I. apply unm_cast. rewrite forallb_forall in B. exact (B v I).
Qed.
Lemma unm_nan : forall v, only_unmodelled (np_nan_to_num v).
Proof.
  assert (G : forall v, only_unmodelled (do a <- np_asarray v ;; Ok (VArr (fst a) (map nan_to_num_elt (snd a))))).
  { intros v e E. destruct (np_asarray v) as [a|x] eqn:A; [discriminate|]. cbn [rbind] in E. injection E as ->. exact (unm_asarray v e A). }
  intros v e E. destruct v; try discriminate; exact (G _ e E).
Qed.

(* ------------------------------------------------------------------ *)
(** ** Writing *)

Lemma wrap_write_says : forall no e, wrap_write no e = Unmodelled \/ wrap_write no e = refused_message no \/ exists k, wrap_write no e = missing_message k no.
Proof. intros no e. destruct e; cbn [wrap_write]; try (right; left; reflexivity); [right; right; eexists; reflexivity|left; reflexivity]. Qed.
Lemma wrap_plain_says : forall no e, wrap_plain no e = Unmodelled \/ wrap_plain no e = refused_message no.
Proof. intros no e. destruct e; cbn [wrap_plain]; try (right; reflexivity). left. reflexivity. Qed.
Lemma wrap1858 : forall d, wp_wrap (write1858 d) = wrap_plain "1858".
Proof. intro d. unfold write1858. reflexivity. Qed.
Lemma wrap2411 : forall d, wp_wrap (write2411 d) = wrap_plain "2411".
Proof. intro d. unfold write2411. repeat (match goal with |- context [match ?r with _ => _ end] => destruct r end); reflexivity. Qed.
Lemma wrap2412 : forall d, wp_wrap (write2412 d) = wrap_plain "2412".
Proof. intro d. unfold write2412. repeat (match goal with |- context [match ?r with _ => _ end] => destruct r end); reflexivity. Qed.
Lemma wrap2414 : forall d, wp_wrap (write2414 d) = wrap_plain "2414".
Proof. intro d. unfold write2414. repeat (match goal with |- context [match ?r with _ => _ end] => destruct r end); reflexivity. Qed.
Lemma wrap2420 : forall d, wp_wrap (write2420 d) = wrap_plain "2420".
Proof. intro d. unfold write2420. repeat (match goal with |- context [match ?r with _ => _ end] => destruct r end); reflexivity. Qed.
Lemma wrap2429 : forall d, wp_wrap (write2429 d) = wrap_plain "2429".
Proof. intro d. unfold write2429. repeat (match goal with |- context [match ?r with _ => _ end] => destruct r end); reflexivity. Qed.
Lemma wrap2467 : forall d, wp_wrap (write2467 d) = wrap_plain "2467".
Proof. intro d. unfold write2467. repeat (match goal with |- context [match ?r with _ => _ end] => destruct r end); reflexivity. Qed.

(** Which writer a type gets. *)
Lemma dispatch_cases : forall c m fd ty,
  (exists n no req, In (n, (no, req)) required /\ In (n, no) written_types /\ py_eqZ ty n = true /\
     forall e, write_dispatch c m fd ty e = write_dispatch c m fd (VInt n) e) \/
  (exists n no, In (n, no) written_types /\ py_eqZ ty n = true /\ forall e, wp_wrap (write_dispatch c m fd ty e) = wrap_plain no) \/
  (forall e, wp_items (write_dispatch c m fd ty e) = []).
Proof.
  intros c m fd ty. unfold write_dispatch. cbv zeta.
  destruct (py_eqZ ty 15) eqn:E15; [left; exists 15%Z, "15", need15; split; [cbn; tauto|]; split; [cbn; tauto|]; split; [exact E15|reflexivity]|].
  destruct (py_eqZ ty 18) eqn:E18; [left; exists 18%Z, "18", need18; split; [cbn; tauto|]; split; [cbn; tauto|]; split; [exact E18|reflexivity]|].
  destruct (py_eqZ ty 55) eqn:E55; [left; exists 55%Z, "55", need55; split; [cbn; tauto|]; split; [cbn; tauto|]; split; [exact E55|reflexivity]|].
  destruct (py_eqZ ty 58) eqn:E58; [left; exists 58%Z, "58", need58; split; [cbn; tauto|]; split; [cbn; tauto|]; split; [exact E58|reflexivity]|].
  destruct (py_eqZ ty 82) eqn:E82; [left; exists 82%Z, "82", need82; split; [cbn; tauto|]; split; [cbn; tauto|]; split; [exact E82|reflexivity]|].
  destruct (py_eqZ ty 151) eqn:E151; [left; exists 151%Z, "151", need151; split; [cbn; tauto|]; split; [cbn; tauto|]; split; [exact E151|reflexivity]|].
  destruct (py_eqZ ty 164) eqn:E164; [left; exists 164%Z, "164", need164; split; [cbn; tauto|]; split; [cbn; tauto|]; split; [exact E164|reflexivity]|].
  destruct (py_eqZ ty 1858) eqn:E1858; [right; left; exists 1858%Z, "1858"; split; [cbn; tauto|]; split; [exact E1858|exact wrap1858]|].
  destruct (py_eqZ ty 2400) eqn:E2400; [left; exists 2400%Z, "2400", []; split; [cbn; tauto|]; split; [cbn; tauto|]; split; [exact E2400|reflexivity]|].
  destruct (py_eqZ ty 2411) eqn:E2411; [right; left; exists 2411%Z, "2411"; split; [cbn; tauto|]; split; [exact E2411|exact wrap2411]|].
  destruct (py_eqZ ty 2412) eqn:E2412; [right; left; exists 2412%Z, "2412"; split; [cbn; tauto|]; split; [exact E2412|exact wrap2412]|].
  destruct (py_eqZ ty 2414) eqn:E2414; [right; left; exists 2414%Z, "2414"; split; [cbn; tauto|]; split; [exact E2414|exact wrap2414]|].
  destruct (py_eqZ ty 2420) eqn:E2420; [right; left; exists 2420%Z, "2420"; split; [cbn; tauto|]; split; [exact E2420|exact wrap2420]|].
  destruct (py_eqZ ty 2429) eqn:E2429; [right; left; exists 2429%Z, "2429"; split; [cbn; tauto|]; split; [exact E2429|exact wrap2429]|].
  destruct (py_eqZ ty 2467) eqn:E2467; [right; left; exists 2467%Z, "2467"; split; [cbn; tauto|]; split; [exact E2467|exact wrap2467]|].
  right. right. reflexivity.
Qed.

(** One dictionary: what is raised is said of it. *)
Theorem C80_write_set : forall c m fd file u d e, w_exc (write_set c m fd file u d) = Some e -> e = Unmodelled \/ said_of d e.
Proof.
  intros c m fd file u d e. unfold write_set. destruct (dget d (KS "type")) as [ty|] eqn:Ty.
  2:{ cbn [w_exc]. intro E. injection E as <-. right. apply said_no_type. exact Ty. }
  set (rd := match dget d (KS "data") with None => Ok d | Some v => do v' <- np_nan_to_num v ;; Ok (dput d (KS "data") v') end).
  assert (R : only_unmodelled rd /\ forall d1, rd = Ok d1 -> over d d1).
  { unfold rd. destruct (dget d (KS "data")) as [v|].
    - pose proof (unm_nan v) as N. destruct (np_nan_to_num v) as [w|x]; cbn [rbind]; split; try (intros z E; discriminate).
      + intros d1 E. injection E as <-. apply over_put, over_refl.
      + intros z E. injection E as <-. exact (N x eq_refl).
    - split; [intros z E; discriminate|]. intros d1 E. injection E as <-. apply over_refl. }
  clearbody rd. destruct R as [N R]. destruct rd as [d1|x].
  2:{ cbn [w_exc]. intro E. injection E as <-. left. exact (N x eq_refl). }
  specialize (R d1 eq_refl). cbv zeta.
  destruct (dispatch_cases c m fd ty) as [(n & no & req & Hr & Hw & Eq & D)|[(n & no & Hw & Eq & D)|D]].
  - rewrite (D d1), (wrap_dispatch n no req Hr). pose proof (steps_dispatch n no req Hr c m fd d d1 R) as S.
    destruct (run_items _ (wp_items (write_dispatch c m fd (VInt n) d1))) as [b [x|]] eqn:Run.
    + cbn [w_exc]. intro E. injection E as <-. destruct (wrap_write_says no x) as [->|[->|[k K]]].
      * left. reflexivity.
      * right. exact (said_refused d ty n no Ty Hw Eq).
      * right. pose proof (wrap_missing _ _ _ K) as Kx. subst x. destruct (run_missing _ _ _ _ _ _ S Run) as [K1 K2].
        exact (said_missing d ty n no req k Ty Hr Eq K1 K2).
    + rewrite refresh_some. cbn [w_exc]. discriminate.
  - rewrite (D d1). destruct (run_items _ (wp_items (write_dispatch c m fd ty d1))) as [b [x|]].
    + cbn [w_exc]. intro E. injection E as <-. destruct (wrap_plain_says no x) as [->| ->]; [left; reflexivity|right].
      exact (said_refused d ty n no Ty Hw Eq).
    + rewrite refresh_some. cbn [w_exc]. discriminate.
  - rewrite (D d1). cbn [run_items]. rewrite refresh_some. cbn [w_exc]. discriminate.
Qed.
Print Assumptions C80_write_set.

(** A list: the exception is about the first dictionary that was refused; those
    before it were written. *)
Lemma says_list : forall l c m fd file u f' u' e, write_list c m fd file u l = (f', u', Some e) ->
  exists a d b f1 u1, l = a ++ d :: b /\ write_list c m fd file u a = (f1, u1, None) /\ (e = Unmodelled \/ said_of d e).
Proof.
  induction l as [|d l IH]; intros c m fd file u f' u' e; cbn [write_list]; [discriminate|].
  destruct (w_exc (write_set c m fd file u d)) as [x|] eqn:X.
  - intro E. injection E as _ _ ->. exists [], d, l, file, u. split; [reflexivity|]. split; [reflexivity|]. exact (C80_write_set _ _ _ _ _ _ _ X).
  - intro E. destruct (IH _ _ _ _ _ _ _ _ E) as (a & y & b & f1 & u1 & -> & W & S).
    exists (d :: a), y, b, f1, u1. split; [reflexivity|]. split; [|exact S]. cbn [write_list]. rewrite X. exact W.
Qed.
Theorem C80_write : forall c file u ds mode fd f' u' e, write_sets c file u ds mode fd = (f', u', Some e) ->
  ds = [] /\ e = PyException "Nothing to write" \/
  lower mode <> lit "overwrite" /\ lower mode <> lit "add" /\ e = PyException "Unknown mode" \/
  exists a d b, ds = a ++ d :: b /\ (a = [] \/ exists f1 u1, write_sets c file u a mode fd = (f1, u1, None)) /\ (e = Unmodelled \/ said_of d e).
Proof.
  intros c file u ds mode fd f' u' e. unfold write_sets. destruct ds as [|d0 ds].
  { intro E. injection E as _ _ <-. left. auto. }
  unfold parse_mode. destruct (leqb (lower mode) (lit "overwrite")) eqn:O; [|destruct (leqb (lower mode) (lit "add")) eqn:A].
  3:{ intro E. injection E as _ _ <-. right. left. split; [|split; [|reflexivity]].
      - intro H. apply leqb_eq in H. congruence.
      - intro H. apply leqb_eq in H. congruence. }
  all: intro E; right; right; destruct (says_list _ _ _ _ _ _ _ _ _ E) as (a & d & b & f1 & u1 & L & W & S);
    exists a, d, b; split; [exact L|]; split; [|exact S]; destruct a as [|a0 a]; [left; reflexivity|right; exists f1, u1; exact W].
Qed.
Print Assumptions C80_write.

(* ------------------------------------------------------------------ *)
(** ** Reading *)

(** Reading raises one of two messages, the first for files that do not exist;
    otherwise the model does not say what happens, or the reader loops for ever
    (see C53). *)
Theorem C80_read : forall file u s ho e, read_sets file u s ho = Err e ->
  file = None /\ e = PyException "Cannot read from a non-existing file" \/
  file <> None /\ (e = PyException "Error when reading data-set(s)." \/ e = Unmodelled \/ e = OutOfFuel).
Proof.
  intros file u s ho e. unfold read_sets. cbv zeta. destruct file as [data|].
  2:{ intro E. injection E as <-. left. auto. }
  intro E. right. split; [discriminate|]. unfold sync in E.
  assert (Y : exists u1, (if refreshed u then Ok u else do '(u', _) <- refresh (Some data) u ;; Ok u') = Ok u1).
  { destruct (refreshed u); [eauto|]. rewrite refresh_some. cbn [rbind]. eauto. }
  destruct Y as [u1 Y]. rewrite Y in E. cbn [rbind] in E.
  destruct (read_all (Some data) u1 _ ho) as [[u2 l]|x]; cbn [try_any rbind] in E; [discriminate|].
  destruct x; cbn [try_any rbind] in E; injection E as <-; auto.
Qed.
Print Assumptions C80_read.

(** The second of three dictionaries lacks a node number; a text for a number; a dictionary
    without a type; an unknown mode. *)
Example C80_example :
  snd (write_sets clock_ex None uff0 [dput frf_ex (KS "rsp_node") (VInt 4); frf_ex; units_ex] (lit "add") true) = Some (missing_message "rsp_node" "58") /\
  snd (write_sets clock_ex None uff0 [[(KS "type", VFloat (float_of_Z 82)); (KS "nodes", VArr DInt [VInt 1; VInt 2]); (KS "trace_num", VStr (lit "one"))]] (lit "Overwrite") true) = Some (refused_message "82") /\
  snd (write_sets clock_ex None uff0 [[(KS "data", VArr DInt [VInt 1])]] (lit "add") true) = Some (PyException "Data-set's dictionary is missing the required 'type' key") /\
  snd (write_sets clock_ex None uff0 [units_ex] (lit "append") true) = Some (PyException "Unknown mode") /\
  snd (write_sets clock_ex None uff0 [[(KS "type", VInt 58); (KS "data", VList [VInt (10 ^ 20)])]] (lit "add") true) = Some Unmodelled /\
  read_sets None uff0 SelAll false = Err (PyException "Cannot read from a non-existing file").
Proof. repeat split; vm_compute; reflexivity. Qed.
