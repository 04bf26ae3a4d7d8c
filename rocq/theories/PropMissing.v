(** C79: a writer's message about a missing key names a required key the
    caller's dictionary really lacks, and when one missing required key is all
    that is wrong with a dictionary, the message names that key. *)
From Coq Require Import String List NArith ZArith Bool Lia.
Import ListNotations.
From Verif Require Import PyBase PyNum PyVal Utf8 Tools DictFacts DsNodes Ds55 Ds58 DsHeaders Uff Container.
From Coq Require Import Lia.
Open Scope string_scope.
Open Scope list_scope.
Open Scope nat_scope.

(* ------------------------------------------------------------------ *)
(** ** Results that raise KeyError only for missing keys *)

Definition only_missing {A} (d : dict) (L : list string) (r : result A) : Prop :=
  forall k, r = Err (KeyError k) -> In k L /\ dget d (KS k) = None.
(** Neither a KeyError nor an exception with a message of its own. *)
Definition plain_exc (e : exc) : Prop := match e with KeyError _ | PyException _ => False | _ => True end.
Definition no_key {A} (r : result A) : Prop := match r with Ok _ => True | Err e => plain_exc e end.
Ltac nk := exact Logic.I.

Lemma no_key_only : forall A d L (r : result A), no_key r -> only_missing d L r.
Proof. intros A d L r N k E. subst. destruct N. Qed.
Lemma no_key_ok : forall A (a : A), no_key (Ok a).
Proof. intros A a. nk. Qed.
Lemma no_key_bind : forall A B (r : result A) (f : A -> result B),
  no_key r -> (forall a, no_key (f a)) -> no_key (rbind r f).
Proof. intros A B r f N F. destruct r; cbn [rbind]; [apply F|exact N]. Qed.
Lemma only_ok : forall A d L (a : A), only_missing d L (Ok a).
Proof. intros A d L a k E. discriminate. Qed.
Lemma only_bind : forall A B d L (r : result A) (f : A -> result B),
  only_missing d L r -> (forall a, only_missing d L (f a)) -> only_missing d L (rbind r f).
Proof. intros A B d L r f N F k E. destruct r; cbn [rbind] in E; [exact (F a k E)|]. apply (N k). congruence. Qed.
Lemma no_key_rseq : forall A (l : list (result A)), Forall no_key l -> no_key (rseq l).
Proof.
  induction 1 as [|r l Hr _ IH]; cbn [rseq]; [apply no_key_ok|].
  apply no_key_bind; [exact Hr|]. intro a. apply no_key_bind; [exact IH|]. intro t. apply no_key_ok.
Qed.
Lemma no_key_rmap : forall A B (f : A -> result B) l, (forall a, no_key (f a)) -> no_key (rmap f l).
Proof. intros A B f l F. apply no_key_rseq. apply List.Forall_map. apply List.Forall_forall. auto. Qed.
Lemma only_rseq : forall A d L (l : list (result A)), Forall (only_missing d L) l -> only_missing d L (rseq l).
Proof.
  induction 1 as [|r l Hr _ IH]; cbn [rseq]; [apply only_ok|].
  apply only_bind; [exact Hr|]. intro a. apply only_bind; [exact IH|]. intro t. apply only_ok.
Qed.

Lemma no_key_of_option : forall A e (o : option A), plain_exc e -> no_key (of_option e o).
Proof. intros A e o N. destruct o; [nk|exact N]. Qed.
Lemma nk_float_of_int : forall z, no_key (py_float_of_int z).
Proof. intros z. unfold py_float_of_int. destruct (float_of_Z z); nk. Qed.
Lemma nk_to_int : forall v, no_key (to_int v).
Proof.
  intros v. destruct v; cbn [to_int]; try (nk).
  - unfold py_int_of_float. destruct f; try nk. destruct (frac_of _ _). nk.
  - apply no_key_of_option. nk.
Qed.
Lemma nk_int_arg : forall v, no_key (fmt_int_arg v).
Proof. intros v. unfold fmt_int_arg. destruct v; try apply nk_to_int. nk. Qed.
Lemma nk_float_arg : forall v, no_key (fmt_float_arg v).
Proof. intros v. destruct v; cbn [fmt_float_arg]; try apply nk_float_of_int; nk. Qed.
Lemma nk_to_str : forall v, no_key (to_str v).
Proof. intros v. destruct v; cbn [to_str]; nk. Qed.
Lemma nk_specs : forall l args, no_key (fmt_specs l args).
Proof.
  induction l as [|sp l IH]; intros args; cbn [fmt_specs].
  - destruct args; nk.
  - destruct sp; try (apply no_key_bind; [apply IH|intro; apply no_key_ok]);
      (destruct args as [|v args]; [nk|]);
      (apply no_key_bind; [|intro; apply no_key_bind; [apply IH|intro; apply no_key_ok]]).
    + apply no_key_bind; [apply nk_int_arg|intro; apply no_key_ok].
    + destruct lf; apply no_key_bind; try apply nk_to_str; intro; apply no_key_ok.
    + apply no_key_bind; [apply nk_float_arg|intro; apply no_key_ok].
Qed.
Lemma nk_to_seq : forall v, no_key (to_seq v).
Proof. intros v. destruct v; cbn [to_seq]; nk. Qed.
Lemma nk_len : forall v, no_key (py_len v).
Proof. intro v. apply no_key_bind; [apply nk_to_seq|intro; apply no_key_ok]. Qed.
Lemma nk_nth : forall A (l : list A) i, no_key (py_nth l i).
Proof.
  intros A l i. unfold py_nth. destruct (_ || _)%bool; [nk|].
  apply no_key_of_option. nk.
Qed.
Lemma nk_cast : forall dt v, no_key (cast dt v).
Proof.
  intros dt v. destruct dt, v; cbn [cast]; try (nk);
    (apply no_key_bind; [apply nk_float_of_int|intro; apply no_key_ok]).
Qed.
Lemma nk_asarray : forall v, no_key (np_asarray v).
Proof.
  intros v. destruct v as [| | | | | |l| | |]; cbn [np_asarray]; try (nk).
  destruct l as [|a l]; [nk|]. destruct (forallb in_int64 (a :: l)); [|nk]. destruct (list_dtype (a :: l)); [|nk].
  apply no_key_bind; [|intro; apply no_key_ok]. apply no_key_rmap. intro. apply nk_cast.
Qed.
Lemma nk_nan_to_num : forall v, no_key (np_nan_to_num v).
Proof.
  intros v. unfold np_nan_to_num.
  destruct v; try (nk); (apply no_key_bind; [apply nk_asarray|intro; apply no_key_ok]).
Qed.
Lemma nk_iscomplex : forall v, no_key (np_iscomplex v).
Proof.
  intros v. unfold np_iscomplex. destruct v as [| | | | | | | |dt ?|]; try (nk);
    try (apply no_key_bind; [apply nk_asarray|intro a; destruct (fst a); nk]).
  destruct dt; nk.
Qed.
Lemma nk_truthy : forall v, no_key (truthy v).
Proof. intros v. destruct v; cbn [truthy]; nk. Qed.
Lemma nk_add_0j : forall v, no_key (add_0j v).
Proof.
  intros v. unfold add_0j. apply no_key_bind; [apply nk_iscomplex|]. intros [|]; [apply no_key_ok|].
  destruct v; try (nk); (apply no_key_bind; [apply nk_float_arg|intro; apply no_key_ok]).
Qed.
Lemma nk_as_num : forall v, no_key (as_num v).
Proof. intros v. destruct v; cbn [as_num]; nk. Qed.
Lemma nk_num_sub : forall a b, no_key (num_sub a b).
Proof.
  intros a b. unfold num_sub. apply no_key_bind; [apply nk_as_num|]. intro x. apply no_key_bind; [apply nk_as_num|]. intro y.
  destruct x, y; try apply no_key_ok; (apply no_key_bind; [apply nk_float_of_int|intro; apply no_key_ok]).
Qed.
Lemma nk_bool_mul : forall b v, no_key (bool_mul b v).
Proof. intros b v. unfold bool_mul. apply no_key_bind; [apply nk_as_num|]. intros []; apply no_key_ok. Qed.
Lemma nk_floats_of : forall l, no_key (floats_of l).
Proof. intro l. apply no_key_rmap. apply nk_float_arg. Qed.
Lemma nk_assign : forall n v, no_key (assign_slice n v).
Proof.
  intros n v. unfold assign_slice. apply no_key_bind; [apply nk_to_seq|]. intro l. apply no_key_bind.
  - destruct v; try apply nk_floats_of. nk.
  - intro fs. destruct (Nat.eqb (length fs) n); [apply no_key_ok|].
    destruct fs as [|x [|? ?]]; nk.
Qed.
Lemma nk_real : forall v, no_key (real_of (Ok v)).
Proof. intros v. destruct v; cbn [real_of rbind]; nk. Qed.
Lemma nk_imag : forall v, no_key (imag_of (Ok v)).
Proof. intros v. destruct v; cbn [imag_of rbind]; nk. Qed.
Lemma nk_parts : forall part v, (forall e, no_key (part (Ok e))) -> no_key (arr_parts part v).
Proof.
  intros part v F. unfold arr_parts. destruct v; try (nk).
  apply no_key_bind; [apply no_key_rmap; exact F|intro; apply no_key_ok].
Qed.
Lemma nk_fstr : forall f v, no_key (fstr f v).
Proof.
  intros f v. unfold fstr. apply no_key_bind; [|intro; apply no_key_ok].
  unfold fstr_arg. destruct v; try apply nk_float_arg. nk.
Qed.

(** ** The same for what is read from a dictionary *)

Definition has (n : string) (L : list string) : bool := existsb (String.eqb n) L.
Lemma has_in : forall n L, has n L = true -> In n L.
Proof. intros n L H. apply existsb_exists in H. destruct H as [m [I E]]. apply String.eqb_eq in E. subst. exact I. Qed.
(** [e] has every key of [d]. *)
Definition over (d e : dict) : Prop := forall k, dget e k = None -> dget d k = None.
Lemma over_refl : forall d, over d d.
Proof. intros d k E. exact E. Qed.
Lemma over_opt : forall d e defs, over d e -> over d (opt_fields e defs).
Proof. intros d e defs O k E. rewrite opt_fields_get in E. apply O. destruct (dget e k); [discriminate|reflexivity]. Qed.
Lemma over_put : forall d e k v, over d e -> over d (dput e k v).
Proof. intros d e k v O k' E. rewrite dget_dput in E. apply O. destruct (key_eqb k' k); [discriminate|exact E]. Qed.

Lemma only_ix : forall d e L n, over d e -> has n L = true -> only_missing d L (ix e n).
Proof.
  intros d e L n O H k E. unfold ix in E. destruct (dget e (KS n)) eqn:G; cbn in E; [discriminate|].
  injection E as <-. split; [apply has_in; exact H|apply O; exact G].
Qed.
(** [e] has all the keys [F]. *)
Definition full (e : dict) (F : list string) : Prop := forall n, In n F -> dget e (KS n) <> None.
Lemma only_full : forall d e L F n, full e F -> has n F = true -> only_missing d L (ix e n).
Proof.
  intros d e L F n H I k E. unfold ix in E. specialize (H n (has_in _ _ I)). destruct (dget e (KS n)); [discriminate|congruence].
Qed.
Lemma full_opt : forall e defs F, full defs F -> full (opt_fields e defs) F.
Proof.
  intros e defs F H n I. rewrite opt_fields_get. specialize (H n I). destruct (dget e (KS n)); [discriminate|exact H].
Qed.
Lemma full_more : forall e defs F, full e F -> full (opt_fields e defs) F.
Proof.
  intros e defs F H n I. rewrite opt_fields_get. specialize (H n I). destruct (dget e (KS n)); [discriminate|congruence].
Qed.
Lemma full_put : forall e k v F, full e F -> full (dput e k v) F.
Proof. intros e k v F H n I. rewrite dget_dput. destruct (key_eqb (KS n) k); [discriminate|exact (H n I)]. Qed.
Lemma full_one : forall e k v, full (dput e (KS k) v) [k].
Proof. intros e k v n [<-|[]]. rewrite dget_dput. cbn [key_eqb]. rewrite String.eqb_refl. discriminate. Qed.
Lemma only_at : forall d L r i, only_missing d L r -> only_missing d L (at_ r i).
Proof.
  intros d L r i H. apply only_bind; [exact H|]. intro v. apply no_key_only.
  apply no_key_bind; [apply nk_to_seq|]. intro. apply nk_nth.
Qed.
Lemma only_real : forall d L r, only_missing d L r -> only_missing d L (real_of r).
Proof. intros d L r H. apply only_bind; [exact H|]. intro v. apply no_key_only. apply (nk_real v). Qed.
Lemma only_imag : forall d L r, only_missing d L r -> only_missing d L (imag_of r).
Proof. intros d L r H. apply only_bind; [exact H|]. intro v. apply no_key_only. apply (nk_imag v). Qed.
Lemma only_int : forall d L r, only_missing d L r -> only_missing d L (int_arg r).
Proof.
  intros d L r H. apply only_bind; [exact H|]. intro v. apply no_key_only.
  apply no_key_bind; [apply nk_to_int|intro; apply no_key_ok].
Qed.
Lemma only_pct : forall d L f args, Forall (only_missing d L) args -> only_missing d L (pct f args).
Proof. intros d L f args F. apply only_bind; [apply only_rseq; exact F|]. intro. apply no_key_only. apply nk_specs. Qed.
Lemma only_record : forall d L args fs b, Forall (only_missing d L) args -> only_missing d L (write_record args fs b).
Proof.
  intros d L args fs b F. apply only_bind; [apply only_rseq; exact F|]. intro vs. apply no_key_only.
  apply no_key_bind; [|intro; apply no_key_ok]. apply no_key_rseq. apply List.Forall_map. apply List.Forall_forall.
  intros [v f] _. apply nk_fstr.
Qed.

Definition step_ok (d : dict) (L : list string) (it : item) : Prop :=
  match it with WTxt r => only_missing d L r | _ => True end.
Lemma run_missing : forall d L l s b k, Forall (step_ok d L) l -> run_items s l = (b, Some (KeyError k)) ->
  In k L /\ dget d (KS k) = None.
Proof.
  intros d L. induction l as [|it l IH]; intros s b k F E; cbn [run_items] in E; [discriminate|].
  inversion F as [|? ? Hit Hl]; subst. destruct it as [[t|e]| |].
  - destruct (utf8_encode t) as [u|e] eqn:U; [exact (IH _ _ _ Hl E)|].
    exfalso. unfold utf8_encode in U. destruct (utf8_enc t); cbn in U; congruence.
  - injection E as _ ->. exact (Hit k eq_refl).
  - exact (IH _ _ _ Hl E).
  - exact (IH _ _ _ Hl E).
Qed.

(* ------------------------------------------------------------------ *)
(** ** The writers *)

Lemma only_again : forall {A B d L x}, only_missing d L (@Err A x) -> only_missing d L (@Err B x).
Proof. intros A B d L x H k E. apply H. congruence. Qed.

Ltac om :=
  repeat first
    [ apply Forall_nil | apply Forall_cons
    | apply only_ok
    | apply only_at | apply only_real | apply only_imag | apply only_int
    | apply only_pct | apply only_record
    | match goal with O : over _ ?e |- only_missing _ _ (ix ?e _) => eapply only_ix; [exact O|reflexivity] end
    | match goal with F : full ?e _ |- only_missing _ _ (ix ?e _) => eapply only_full; [exact F|reflexivity] end ].
(** A required name that is none of the others: by cases. *)
Ltac each Hk := repeat (destruct Hk as [<-|Hk]; [first [reflexivity|discriminate]|]); destruct Hk.

Ltac st := repeat (apply Forall_cons || apply Forall_nil); cbn [step_ok hdr_lines end_line txt].
Definition keys_of (d : dict) : list string := map (fun kv => key_name (fst kv)) d.

Definition need15 : list string := ["node_nums"; "x"; "y"; "z"].
Definition opt15 : list string := ["def_cs"; "disp_cs"; "color"].
Lemma steps15 : forall d e, over d e -> Forall (step_ok d need15) (wp_items (write15 e)).
Proof.
  intros d e O. unfold write15.
  assert (H : only_missing d need15 (do v <- ix e "node_nums" ;; py_len v)).
  { apply only_bind; [eapply only_ix; [exact O|reflexivity]|]. intro. apply no_key_only. apply nk_len. }
  destruct (do v <- ix e "node_nums" ;; py_len v) as [n|x]; cbn [wp_items].
  2:{ constructor; [exact (only_again H)|constructor]. }
  match goal with |- context [rec15 ?x] => set (e1 := x) end.
  assert (O1 : over d e1) by (apply over_opt; exact O).
  assert (F1 : full e1 opt15) by (apply full_opt; intros n' I; each I).
  constructor; [cbn [step_ok]; om|]. apply Forall_app. split; [|st; om].
  apply List.Forall_map, List.Forall_forall. intros i _. unfold rec15. cbn [step_ok map]. om.
Qed.

Definition need18 : list string := ["cs_num"; "ref_cs_num"; "ref_o"; "x_point"; "xz_point"].
Definition opt18 : list string := ["cs_type"; "color"; "method"; "cs_name"].
Lemma steps18 : forall d e, over d e -> Forall (step_ok d need18) (wp_items (write18 e)).
Proof.
  intros d e O. unfold write18.
  assert (H : only_missing d need18 (do v <- ix e "cs_num" ;; py_len v)).
  { apply only_bind; [eapply only_ix; [exact O|reflexivity]|]. intro. apply no_key_only. apply nk_len. }
  destruct (do v <- ix e "cs_num" ;; py_len v) as [n|x]; cbn [wp_items].
  2:{ constructor; [exact (only_again H)|constructor]. }
  match goal with |- context [rec18 ?x] => set (e1 := x) end.
  assert (O1 : over d e1) by (apply over_opt; exact O).
  assert (F1 : full e1 opt18) by (apply full_opt; intros n' I; each I).
  constructor; [cbn [step_ok hdr_lines txt]; om|]. apply Forall_app. split; [|st; om].
  apply List.Forall_flat_map, List.Forall_forall. intros i _. unfold rec18. cbn [map].
  st; om.
Qed.

Definition need82 : list string := ["nodes"; "trace_num"].
Definition opt82 : list string := ["id"; "color"].
Lemma row10_ok : forall d L l, step_ok d L (row10 l).
Proof.
  intros d L l. unfold row10. cbn [step_ok]. apply no_key_only. apply no_key_bind; [|intro; apply no_key_ok].
  apply no_key_rmap. intro v. unfold pct. cbn [rseq rbind]. apply nk_specs.
Qed.
Lemma rows8_ok : forall d L n l, Forall (step_ok d L) (rows8 n l).
Proof. intros d L. induction n as [|n IH]; intro l; cbn [rows8]; [constructor|]. constructor; [apply row10_ok|apply IH]. Qed.
Lemma steps82 : forall d e, over d e -> Forall (step_ok d need82) (wp_items (write82 e)).
Proof.
  intros d e O. unfold write82.
  match goal with |- context [ix ?x "nodes"] => set (e1 := x) end.
  assert (O1 : over d e1) by (apply over_opt; exact O).
  assert (F1 : full e1 opt82) by (apply full_opt; intros n' I; each I). cbn [wp_items]. clearbody e1.
  pose proof (only_ix d e1 need82 "nodes" O1 eq_refl) as H.
  destruct (ix e1 "nodes") as [v|x]; [|constructor; [exact (only_again H)|constructor]].
  destruct v as [| | | | | | |dt nodes| |]; try (st; apply no_key_only; nk).
  assert (G : Forall (step_ok d need82)
    (hdr_lines 82
            :: txt "%10i%10i%10i\n" [ix e1 "trace_num"; I (Z.of_nat (changes nodes + 1)); ix e1 "color"]
            :: txt "%-80s\n" [ix e1 "id"]
            :: rows8 ((changes nodes + 1) / 8) nodes
            ++ (if Nat.ltb 0 ((changes nodes + 1) mod 8) then [row10 (skipn (8 * ((changes nodes + 1) / 8)) nodes)] else [])
            ++ [end_line])).
  { constructor; [cbn [step_ok hdr_lines txt]; om|].
    constructor; [cbn [step_ok txt]; om|].
    constructor; [cbn [step_ok txt]; om|].
    apply Forall_app. split; [apply rows8_ok|]. apply Forall_app. split.
    - destruct (Nat.ltb _ _); st; apply row10_ok.
    - st; om. }
  destruct dt; try exact G; st; apply no_key_only; nk.
Qed.

Definition need151 : list string := ["model_name"; "description"; "db_app"; "program"].
Definition opt151 : list string :=
  ["version_db1"; "version_db2"; "file_type"; "date_db_created"; "time_db_created"; "date_db_saved"; "time_db_saved";
   "date_file_written"; "time_file_written"].
Lemma steps151 : forall c d e, over d e -> Forall (step_ok d need151) (wp_items (write151 c e)).
Proof.
  intros c d e O. unfold write151.
  match goal with |- context [ix ?x "program"] => set (e1 := x) end.
  assert (O1 : over d e1) by (apply over_opt; exact O).
  assert (F1 : full e1 opt151) by (apply full_opt; intros n' I; each I). cbn [wp_items]. clearbody e1.
  st; om.
Qed.
Definition need164 : list string := ["units_code"; "length"; "force"; "temp"; "temp_offset"].
Definition opt164 : list string := ["units_description"; "temp_mode"].
Lemma steps164 : forall d e, over d e -> Forall (step_ok d need164) (wp_items (write164 e)).
Proof.
  intros d e O. unfold write164.
  match goal with |- context [ix ?x "force"] => set (e1 := x) end.
  assert (O1 : over d e1) by (apply over_opt; exact O).
  assert (F1 : full e1 opt164) by (apply full_opt; intros n' I; each I). cbn [wp_items]. clearbody e1.
  st; om. apply only_bind; [|intro]; om.
Qed.
Definition opt2400 : list string := keys_of defaults2400.
Lemma steps2400 : forall d e, over d e -> Forall (step_ok d []) (wp_items (write2400 e)).
Proof.
  intros d e O. unfold write2400.
  match goal with |- context [ix ?x "date"] => set (e1 := x) end.
  assert (O1 : over d e1) by (apply over_opt; exact O).
  assert (F1 : full e1 opt2400) by (apply full_opt; intros n' I; each I). cbn [wp_items]. clearbody e1.
  constructor; [cbn [step_ok hdr_lines txt]; om|].
  constructor; [cbn [step_ok txt]; om|].
  constructor; [cbn [step_ok txt]; om|].
  constructor; [cbn [step_ok txt]; om|].
  constructor.
  { cbn [step_ok]. apply only_bind; [om|]. intro v. apply no_key_only.
    apply no_key_bind; [apply nk_to_seq|]. intro l. apply no_key_bind.
    - apply no_key_rmap. intro x. unfold pct. cbn [rseq rbind]. apply nk_specs.
    - intro p. unfold pct. cbn [rseq rbind]. apply nk_specs. }
  constructor; [cbn [step_ok txt]; om|].
  constructor; [cbn [step_ok txt]; om|].
  constructor; [cbn [step_ok end_line txt]; om|]. constructor.
Qed.

Definition need55 : list string :=
  ["analysis_type"; "data_ch"; "spec_data_type"; "load_case"; "mode_n"; "freq_step_n"; "freq"; "eig"; "node_nums"; "r1"; "r2"; "r3"].
Definition opt55 : list string := ["units_description"; "id1"; "id2"; "id3"; "id4"; "id5"; "model_type"].
Definition more55 (t : Z) : list string :=
  if (t =? 2)%Z then ["modal_m"; "modal_damp_vis"; "modal_damp_his"] else if (t =? 5)%Z then [] else ["modal_a"; "modal_b"].
Lemma steps55 : forall d e, over d e -> Forall (step_ok d need55) (wp_items (write55 e)).
Proof.
  intros d e O. unfold write55.
  assert (P : over d (fst (prep55 e)) /\ only_missing d need55 (snd (prep55 e)) /\
    full (fst (prep55 e)) opt55 /\ forall t, snd (prep55 e) = Ok t -> full (fst (prep55 e)) (more55 t)).
  { unfold prep55. match goal with |- context [ix ?x "analysis_type"] => set (e0 := x) end.
    assert (O0 : over d e0) by (apply over_opt; exact O).
    assert (F0 : full e0 opt55) by (apply full_opt; intros n' I; each I). clearbody e0.
    pose proof (only_ix d e0 need55 "analysis_type" O0 eq_refl) as H.
    destruct (ix e0 "analysis_type") as [v|x]; [|refine (conj _ (conj _ (conj _ _))); [exact O0|exact (only_again H)|exact F0|discriminate]].
    destruct (py_eqZ v 2).
    { refine (conj _ (conj _ (conj _ _))); [apply over_opt; exact O0|apply only_ok|apply full_more; exact F0|].
      intros t E. injection E as <-. apply full_opt. intros n' I. each I. }
    destruct (py_eqZ v 3 || py_eqZ v 7)%bool.
    2:{ destruct (py_eqZ v 5); (refine (conj _ (conj _ (conj _ _))); [exact O0|apply no_key_only; nk|exact F0|]); [|discriminate].
        intros t E. injection E as <-. intros n' I. each I. }
    match goal with |- context [ix ?x "modal_a"] => set (e1 := x) end.
    assert (O1 : over d e1) by (apply over_opt; exact O0).
    assert (F1 : full e1 opt55) by (apply full_more; exact F0).
    assert (G1 : full e1 ["modal_a"; "modal_b"]) by (apply full_opt; intros n' I; each I). clearbody e1.
    assert (H1 : only_missing d need55 (do w <- ix e1 "modal_a" ;; add_0j w)).
    { apply only_bind; [om|]. intro. apply no_key_only. apply nk_add_0j. }
    destruct (do w <- ix e1 "modal_a" ;; add_0j w) as [a|x]; [|refine (conj _ (conj _ (conj _ _))); [exact O1|exact (only_again H1)|exact F1|discriminate]].
    assert (O2 : over d (dput e1 (KS "modal_a") a)) by (apply over_put; exact O1).
    assert (F2 : full (dput e1 (KS "modal_a") a) opt55) by (apply full_put; exact F1).
    assert (G2 : full (dput e1 (KS "modal_a") a) ["modal_a"; "modal_b"]) by (apply full_put; exact G1).
    cbv zeta. set (e2 := dput e1 (KS "modal_a") a) in *. clearbody e2.
    assert (H2 : only_missing d need55 (do w <- ix e2 "modal_b" ;; add_0j w)).
    { apply only_bind; [om|]. intro. apply no_key_only. apply nk_add_0j. }
    destruct (do w <- ix e2 "modal_b" ;; add_0j w) as [b|x]; [|refine (conj _ (conj _ (conj _ _))); [exact O2|exact (only_again H2)|exact F2|discriminate]].
    refine (conj _ (conj _ (conj _ _))); [apply over_put; exact O2|apply only_ok|apply full_put; exact F2|].
    intros t E. injection E as <-. apply full_put. destruct (py_eqZ v 3); exact G2. }
  destruct (prep55 e) as [e1 rt]. cbn [fst snd] in P. destruct P as (O1 & P & F1 & G1). cbn [wp_items].
  destruct rt as [t|x]; [|st; exact (only_again P)]. specialize (G1 t eq_refl). cbv zeta.
  assert (S : (dmem e1 (KS "r4") && dmem e1 (KS "r5") && dmem e1 (KS "r6"))%bool = true -> full e1 ["r4"; "r5"; "r6"]).
  { intro S. apply andb_prop in S. destruct S as [S S6]. apply andb_prop in S. destruct S as [S4 S5].
    apply dmem_dget in S4, S5, S6. intros n' [<-|[<-|[<-|[]]]]; assumption. }
  revert S. generalize (dmem e1 (KS "r4") && dmem e1 (KS "r5") && dmem e1 (KS "r6"))%bool. intros six S.
  assert (H1 : only_missing d need55 (do v <- ix e1 "r1" ;; np_iscomplex v)).
  { apply only_bind; [om|]. intro. apply no_key_only. apply nk_iscomplex. }
  destruct (do v <- ix e1 "r1" ;; np_iscomplex v) as [cp|x]; [|st; exact (only_again H1)].
  cbn [map app]. st; om. apply Forall_app. split.
  - unfold recs7_8. unfold more55 in G1. destruct (t =? 2)%Z; [st; om|]. destruct (t =? 5)%Z; st; om.
  - assert (H2 : only_missing d need55 (do v <- ix e1 "node_nums" ;; py_len v)).
    { apply only_bind; [om|]. intro. apply no_key_only. apply nk_len. }
    destruct (do v <- ix e1 "node_nums" ;; py_len v) as [n|x]; [|st; exact (only_again H2)].
    apply Forall_app. split; [|st; om]. apply List.Forall_flat_map, List.Forall_forall. intros i _.
    unfold node55. cbn [map]. destruct cp; [st; om|]. destruct six; [specialize (S eq_refl)|]; st; om.
Qed.

Definition need58 : list string := ["func_type"; "data"; "ord_data_type"; "x"; "rsp_node"; "rsp_dir"; "ref_node"; "ref_dir"; "orddenom_spec_data_type"].
Lemma num_block_ok : forall d L ws l, Forall (step_ok d L) (num_block ws l).
Proof. intros. unfold num_block. destruct (Nat.ltb _ _); st; om. Qed.
Lemma steps58 : forall ov fd d e, over d e -> Forall (step_ok d need58) (wp_items (write58 ov fd e)).
Proof.
  intros ov fd d e O. unfold write58. set (L := need58).
  assert (H0 : only_missing d L (ix e "func_type")) by (eapply only_ix; [exact O|reflexivity]).
  destruct (ix e "func_type") as [ft|x]; [|cbn [wp_items]; st; exact (only_again H0)].
  destruct (negb _); [cbn [wp_items]; st; apply no_key_only; nk|].
  assert (O0 : over d (opt_fields e defaults58)) by (apply over_opt; exact O).
  assert (F0 : full (opt_fields e defaults58) (keys_of defaults58)) by (apply full_opt; intros n' I; each I).
  set (e0 := opt_fields e defaults58) in *. clearbody e0. cbv zeta.
  assert (P : only_missing d L (prepare58_write e0 fd) /\
    forall p, prepare58_write e0 fd = Ok p -> over d (p_d p) /\ full (p_d p) (keys_of defaults58) /\ full (p_d p) ["abscissa_min"] /\ no_key (p_dbl p) /\ no_key (p_nb p)).
  { unfold prepare58_write.
    assert (H1 : only_missing d L (ix e0 "data")) by (eapply only_ix; [exact O0|reflexivity]).
    destruct (ix e0 "data") as [data|x]; cbn [rbind]; [clear H1|split; [exact (only_again H1)|discriminate]].
    pose proof (no_key_only _ d L _ (nk_len data)) as H1.
    destruct (py_len data) as [n|x]; cbn [rbind]; [clear H1|split; [exact (only_again H1)|discriminate]].
    pose proof (no_key_only _ d L _ (nk_iscomplex data)) as H1.
    destruct (np_iscomplex data) as [c|x]; cbn [rbind]; [clear H1|split; [exact (only_again H1)|discriminate]].
    match goal with |- context [ix ?x "ord_data_type"] => set (e1 := x) end.
    assert (O1 : over d e1) by (unfold e1; destruct fd; [apply over_put|]; exact O0).
    assert (F1 : full e1 (keys_of defaults58)) by (unfold e1; destruct fd; [apply full_put|]; exact F0). clearbody e1. cbv zeta.
    assert (H1 : only_missing d L (ix e1 "ord_data_type")) by (eapply only_ix; [exact O1|reflexivity]).
    destruct (ix e1 "ord_data_type") as [odt|x]; cbn [rbind]; [clear H1|split; [exact (only_again H1)|discriminate]].
    set (dbl := if eq_one_of odt [4; 6]%Z then Ok true else if eq_one_of odt [2; 5]%Z then Ok false else Err UnboundLocalError).
    assert (D : no_key dbl) by (unfold dbl; repeat destruct (eq_one_of _ _); nk).
    clearbody dbl.
    set (nb := (do b <- dbl ;; Ok (Z.of_nat n * (if b then 8 else 4))%Z)).
    assert (B : no_key nb) by (unfold nb; apply no_key_bind; [exact D|intro; apply no_key_ok]). clearbody nb.
    set (r2 := if dmem e1 (KS "n_bytes") then do b <- nb ;; Ok (dput e1 (KS "n_bytes") (VInt b)) else Ok e1).
    assert (H2 : no_key r2 /\ forall e2, r2 = Ok e2 -> over d e2 /\ full e2 (keys_of defaults58)).
    { unfold r2. destruct (dmem e1 (KS "n_bytes")).
      - destruct nb as [b|x]; cbn [rbind]; split; try nk; try exact B; intros e2 E; try discriminate.
        injection E as <-. split; [apply over_put; exact O1|apply full_put; exact F1].
      - split; [nk|]. intros e2 E. injection E as <-. auto. }
    clearbody r2. destruct H2 as [N2 H2]. pose proof (no_key_only _ d L _ N2) as H1.
    destruct r2 as [e2|x]; cbn [rbind]; [|split; [exact (only_again H1)|discriminate]].
    destruct (H2 e2 eq_refl) as [O2 F2]. clear H1 N2 H2.
    assert (H1 : only_missing d L (ix e2 "abscissa_spacing")) by (eapply only_full; [exact F2|reflexivity]).
    destruct (ix e2 "abscissa_spacing") as [sp|x]; cbn [rbind]; [clear H1|split; [exact (only_again H1)|discriminate]].
    pose proof (no_key_only _ d L _ (nk_truthy sp)) as H1.
    destruct (truthy sp) as [ev|x]; cbn [rbind]; [clear H1|split; [exact (only_again H1)|discriminate]].
    assert (H1 : only_missing d L (at_ (ix e2 "x") 0)) by (apply only_at; eapply only_ix; [exact O2|reflexivity]).
    destruct (at_ (ix e2 "x") 0) as [x0|x]; cbn [rbind]; [clear H1|split; [exact (only_again H1)|discriminate]].
    assert (O3 : over d (dput e2 (KS "abscissa_min") x0)) by (apply over_put; exact O2).
    assert (F3 : full (dput e2 (KS "abscissa_min") x0) (keys_of defaults58)) by (apply full_put; exact F2).
    pose proof (full_one e2 "abscissa_min" x0) as G3.
    set (e3 := dput e2 (KS "abscissa_min") x0) in *. clearbody e3.
    assert (H1 : only_missing d L (at_ (ix e3 "x") 1)) by (apply only_at; eapply only_ix; [exact O3|reflexivity]).
    destruct (at_ (ix e3 "x") 1) as [x1|x]; cbn [rbind]; [clear H1|split; [exact (only_again H1)|discriminate]].
    pose proof (no_key_only _ d L _ (nk_num_sub x1 x0)) as H1.
    destruct (num_sub x1 x0) as [dx|x]; cbn [rbind]; [clear H1|split; [exact (only_again H1)|discriminate]].
    split; [apply only_ok|]. intros p E. injection E as <-. cbn [p_d p_dbl p_nb]. auto 6. }
  destruct P as [P1 P2]. destruct (prepare58_write e0 fd) as [p|x]; [|cbn [wp_items]; st; exact (only_again P1)].
  destruct (P2 p eq_refl) as (O3 & F3 & G3 & D & B). clear P1 P2. cbn [wp_items].
  apply Forall_cons; [cbn [step_ok txt]; om|].
  assert (H1 : only_missing d L (do v <- ix (p_d p) "binary" ;; truthy v)).
  { apply only_bind; [om|]. intro. apply no_key_only. apply nk_truthy. }
  destruct (do v <- ix (p_d p) "binary" ;; truthy v) as [bin|x]; [|st; exact (only_again H1)].
  apply Forall_cons.
  { destruct bin; cbn [step_ok txt]; om. apply only_bind; [apply no_key_only; exact B|intro; apply only_ok]. }
  apply Forall_app. split.
  - unfold header58. cbn [map app]. unfold axis_line. st; om.
    + apply only_bind; [om|]. intro. apply no_key_only. apply nk_bool_mul.
    + apply no_key_only. apply nk_bool_mul.
  - assert (H2 : only_missing d L (payload58 (p_d p) (p_n p) (p_r p) (p_even p))).
    { unfold payload58. apply only_bind; [om|]. intro data.
      destruct (p_r p), (p_even p).
      - apply no_key_only. destruct data; try nk; apply nk_floats_of.
      - apply only_bind; [om|]. intro. apply no_key_only.
        repeat (apply no_key_bind; [apply nk_assign|intro]). nk.
      - apply no_key_only. apply no_key_bind; [apply nk_parts; apply nk_real|intro]. apply no_key_bind; [apply nk_assign|intro].
        apply no_key_bind; [apply nk_parts; apply nk_imag|intro]. apply no_key_bind; [apply nk_assign|intro]. nk.
      - apply only_bind; [om|]. intro. apply no_key_only. apply no_key_bind; [apply nk_assign|intro].
        apply no_key_bind; [apply nk_parts; apply nk_real|intro]. apply no_key_bind; [apply nk_assign|intro].
        apply no_key_bind; [apply nk_parts; apply nk_imag|intro]. apply no_key_bind; [apply nk_assign|intro]. nk. }
    destruct (payload58 (p_d p) (p_n p) (p_r p) (p_even p)) as [l|x]; [|st; exact (only_again H2)].
    apply Forall_app. split; [|st; om].
    destruct bin.
    + apply Forall_app. split; [destruct ov; st; exact Logic.I|]. apply Forall_app. split; [|destruct ov; st; exact Logic.I].
      apply List.Forall_map, List.Forall_forall. intros. exact Logic.I.
    + destruct (p_dbl p) as [b|x]; [|st; apply no_key_only; exact D].
      unfold ascii58. destruct b; [destruct (p_even p); [|destruct (p_r p)]|]; try apply num_block_ok. st; om.
Qed.

(* ------------------------------------------------------------------ *)
(** ** Two dictionaries that differ by a missing key *)

(** The first computation gives what the second gives, or the KeyError. *)
Definition lag {A} (k : string) (r r' : result A) : Prop := r = r' \/ r = Err (KeyError k).
(** The first run does what the second does, or stops early with the KeyError. *)
Inductive trail (k : string) : list item -> list item -> Prop :=
| t_nil : trail k [] []
| t_same : forall it l l', trail k l l' -> trail k (it :: l) (it :: l')
| t_stop : forall l l', trail k (WTxt (Err (KeyError k)) :: l) l'.
Definition near (k : string) (d d' : dict) : Prop :=
  forall n, dget d n = dget d' n \/ (n = KS k /\ dget d n = None).

Lemma trail_refl : forall k l, trail k l l.
Proof. intros k. induction l; constructor; assumption. Qed.
Lemma trail_lag : forall k r r' l l', lag k r r' -> trail k l l' -> trail k (WTxt r :: l) (WTxt r' :: l').
Proof. intros k r r' l l' [->| ->] T; [apply t_same; exact T|apply t_stop]. Qed.
Lemma trail_app : forall k a a' b b', trail k a a' -> trail k b b' -> trail k (a ++ b) (a' ++ b').
Proof. intros k a a' b b' T U. induction T; cbn [app]; [exact U|apply t_same; assumption|apply t_stop]. Qed.
Lemma trail_flat : forall A k (f g : A -> list item) l, (forall a, trail k (f a) (g a)) -> trail k (flat_map f l) (flat_map g l).
Proof. intros A k f g l F. induction l; cbn [flat_map]; [constructor|]. apply trail_app; auto. Qed.
Lemma trail_run : forall k l l', trail k l l' -> forall s,
  run_items s l = run_items s l' \/ exists b, run_items s l = (b, Some (KeyError k)).
Proof.
  induction 1 as [|it l l' T IH|l l']; intro s.
  - left. reflexivity.
  - destruct it as [[t|e]| |]; cbn [run_items]; try apply IH; [destruct (utf8_encode t); [apply IH|left; reflexivity]|left; reflexivity].
  - right. cbn [run_items]. eexists. reflexivity.
Qed.

Lemma lag_refl : forall A k (r : result A), lag k r r.
Proof. intros. left. reflexivity. Qed.
Lemma lag_bind : forall A B k (r r' : result A) (f f' : A -> result B),
  lag k r r' -> (forall a, lag k (f a) (f' a)) -> lag k (rbind r f) (rbind r' f').
Proof. intros A B k r r' f f' [->| ->] F; [|right; reflexivity]. destruct r'; cbn [rbind]; [apply F|left; reflexivity]. Qed.
Lemma lag_rseq : forall A k (l l' : list (result A)), Forall2 (lag k) l l' -> lag k (rseq l) (rseq l').
Proof.
  induction 1 as [|r r' l l' H _ IH]; cbn [rseq]; [apply lag_refl|]. apply lag_bind; [exact H|]. intro a.
  apply lag_bind; [exact IH|]. intro. apply lag_refl.
Qed.
Lemma lag_pct : forall k f l l', Forall2 (lag k) l l' -> lag k (pct f l) (pct f l').
Proof. intros k f l l' F. apply lag_bind; [apply lag_rseq; exact F|]. intro. apply lag_refl. Qed.
Lemma lag_record : forall k l l' fs b, Forall2 (lag k) l l' -> lag k (write_record l fs b) (write_record l' fs b).
Proof. intros k l l' fs b F. apply lag_bind; [apply lag_rseq; exact F|]. intro. apply lag_refl. Qed.
Lemma lag_at : forall k r r' i, lag k r r' -> lag k (at_ r i) (at_ r' i).
Proof. intros. apply lag_bind; [assumption|]. intro. apply lag_refl. Qed.
Lemma lag_real : forall k r r', lag k r r' -> lag k (real_of r) (real_of r').
Proof. intros. apply lag_bind; [assumption|]. intro. apply lag_refl. Qed.
Lemma lag_imag : forall k r r', lag k r r' -> lag k (imag_of r) (imag_of r').
Proof. intros. apply lag_bind; [assumption|]. intro. apply lag_refl. Qed.
Lemma lag_int : forall k r r', lag k r r' -> lag k (int_arg r) (int_arg r').
Proof. intros. apply lag_bind; [assumption|]. intro. apply lag_refl. Qed.
Lemma lag_ix : forall k d d' n, near k d d' -> lag k (ix d n) (ix d' n).
Proof.
  intros k d d' n H. unfold ix. destruct (H (KS n)) as [E|[E G]]; [rewrite E; left; reflexivity|].
  injection E as ->. rewrite G. right. reflexivity.
Qed.
Lemma near_opt : forall k d d' defs, near k d d' -> dget defs (KS k) = None -> near k (opt_fields d defs) (opt_fields d' defs).
Proof.
  intros k d d' defs H E n. rewrite !opt_fields_get. destruct (H n) as [->|[-> G]]; [left; reflexivity|].
  right. rewrite G. auto.
Qed.
Lemma near_put : forall k d d' n v, near k d d' -> near k (dput d n v) (dput d' n v).
Proof.
  intros k d d' n v H m. rewrite !dget_dput. destruct (key_eqb m n); [left; reflexivity|apply H].
Qed.
Lemma near_mem : forall k d d' n, near k d d' -> n <> k -> dmem d (KS n) = dmem d' (KS n).
Proof. intros k d d' n H N. unfold dmem. destruct (H (KS n)) as [->|[E _]]; [reflexivity|congruence]. Qed.

Ltac lg E :=
  repeat first
    [ apply Forall2_nil | apply Forall2_cons
    | apply lag_refl
    | apply lag_at | apply lag_real | apply lag_imag | apply lag_int
    | apply lag_pct | apply lag_record
    | (apply lag_ix; exact E) ].
Ltac tr E :=
  repeat (apply t_nil || apply trail_refl || (apply trail_lag; [lg E|])).

Lemma trail15 : forall k e e', In k need15 -> near k e e' -> trail k (wp_items (write15 e)) (wp_items (write15 e')).
Proof.
  intros k e e' Hk E. unfold write15.
  assert (H : lag k (do v <- ix e "node_nums" ;; py_len v) (do v <- ix e' "node_nums" ;; py_len v)).
  { apply lag_bind; [lg E|]. intro. apply lag_refl. }
  destruct H as [->| ->]; [|apply t_stop].
  destruct (do v <- ix e' "node_nums" ;; py_len v) as [n|x]; [|apply trail_refl]. cbn [wp_items].
  match goal with |- context [opt_fields e ?x] => assert (E1 : near k (opt_fields e x) (opt_fields e' x)) end.
  { apply near_opt; [exact E|]. each Hk. }
  apply t_same. apply trail_app; [|apply trail_refl].
  induction (map Z.of_nat (seq 0 n)) as [|i l IH]; cbn [map]; [constructor|].
  unfold rec15 at 1 3. apply trail_lag; [cbn [map]; lg E1|exact IH].
Qed.

Lemma trail18 : forall k e e', In k need18 -> near k e e' -> trail k (wp_items (write18 e)) (wp_items (write18 e')).
Proof.
  intros k e e' Hk E. unfold write18.
  assert (H : lag k (do v <- ix e "cs_num" ;; py_len v) (do v <- ix e' "cs_num" ;; py_len v)).
  { apply lag_bind; [lg E|]. intro. apply lag_refl. }
  destruct H as [->| ->]; [|apply t_stop].
  destruct (do v <- ix e' "cs_num" ;; py_len v) as [n|x]; [|apply trail_refl]. cbn [wp_items].
  match goal with |- context [opt_fields e ?x] => assert (E1 : near k (opt_fields e x) (opt_fields e' x)) end.
  { apply near_opt; [exact E|]. each Hk. }
  apply t_same. apply trail_app; [|apply trail_refl]. apply trail_flat. intro i. unfold rec18. cbn [map]. unfold txt. tr E1.
Qed.

Lemma trail82 : forall k e e', In k need82 -> near k e e' -> trail k (wp_items (write82 e)) (wp_items (write82 e')).
Proof.
  intros k e e' Hk E. unfold write82.
  match goal with |- context [opt_fields e ?x] => assert (E1 : near k (opt_fields e x) (opt_fields e' x)) end.
  { apply near_opt; [exact E|]. each Hk. }
  cbv zeta. cbn [wp_items]. revert E1.
  match goal with |- near _ ?x ?y -> _ => generalize x, y end. intros e1 e1' E1.
  destruct (lag_ix k e1 e1' "nodes" E1) as [->| ->]; [|apply t_stop].
  destruct (ix e1' "nodes") as [v|x]; [|apply trail_refl].
  destruct v as [| | | | | | |dt nodes| |]; try apply trail_refl.
  destruct dt; try apply trail_refl; (apply t_same; unfold txt; tr E1).
Qed.

Lemma trail151 : forall c k e e', In k need151 -> near k e e' -> trail k (wp_items (write151 c e)) (wp_items (write151 c e')).
Proof.
  intros c k e e' Hk E. unfold write151.
  match goal with |- context [opt_fields e ?x] => assert (E1 : near k (opt_fields e x) (opt_fields e' x)) end.
  { apply near_opt; [exact E|]. each Hk. }
  cbv zeta. cbn [wp_items]. revert E1.
  match goal with |- near _ ?x ?y -> _ => generalize x, y end. intros e1 e1' E1.
  apply t_same. unfold txt. tr E1.
Qed.
Lemma trail164 : forall k e e', In k need164 -> near k e e' -> trail k (wp_items (write164 e)) (wp_items (write164 e')).
Proof.
  intros k e e' Hk E. unfold write164.
  match goal with |- context [opt_fields e ?x] => assert (E1 : near k (opt_fields e x) (opt_fields e' x)) end.
  { apply near_opt; [exact E|]. each Hk. }
  cbv zeta. cbn [wp_items]. revert E1.
  match goal with |- near _ ?x ?y -> _ => generalize x, y end. intros e1 e1' E1.
  apply t_same. unfold txt. apply trail_lag; [lg E1|]. apply trail_lag; [|apply trail_refl].
  apply lag_bind; [lg E1|]. intro. apply lag_refl.
Qed.

Lemma trail55 : forall k e e', In k need55 -> near k e e' -> trail k (wp_items (write55 e)) (wp_items (write55 e')).
Proof.
  intros k e e' Hk E. unfold write55.
  assert (P : snd (prep55 e) = Err (KeyError k) \/ (snd (prep55 e) = snd (prep55 e') /\ near k (fst (prep55 e)) (fst (prep55 e')))).
  { unfold prep55.
    match goal with |- context [opt_fields e ?x] => assert (E0 : near k (opt_fields e x) (opt_fields e' x)) end.
    { apply near_opt; [exact E|]. each Hk. }
    revert E0. match goal with |- near _ ?x ?y -> _ => generalize x, y end. intros e0 e0' E0.
    destruct (lag_ix k e0 e0' "analysis_type" E0) as [->| ->]; [|left; reflexivity].
    destruct (ix e0' "analysis_type") as [v|x]; [|right; auto].
    destruct (py_eqZ v 2); [right; split; [reflexivity|apply near_opt; [exact E0|each Hk]]|].
    destruct (py_eqZ v 3 || py_eqZ v 7)%bool; [|destruct (py_eqZ v 5); right; auto].
    cbv zeta.
    match goal with |- context [opt_fields e0 ?x] => assert (E1 : near k (opt_fields e0 x) (opt_fields e0' x)) end.
    { apply near_opt; [exact E0|each Hk]. }
    revert E1. match goal with |- near _ ?x ?y -> _ => generalize x, y end. intros e1 e1' E1.
    assert (H1 : lag k (do w <- ix e1 "modal_a" ;; add_0j w) (do w <- ix e1' "modal_a" ;; add_0j w)).
    { apply lag_bind; [lg E1|]. intro. apply lag_refl. }
    destruct H1 as [->| ->]; [|left; reflexivity].
    destruct (do w <- ix e1' "modal_a" ;; add_0j w) as [a|x]; [|right; auto].
    pose proof (near_put k e1 e1' (KS "modal_a") a E1) as E2. revert E2.
    generalize (dput e1 (KS "modal_a") a) (dput e1' (KS "modal_a") a). intros e2 e2' E2.
    assert (H1 : lag k (do w <- ix e2 "modal_b" ;; add_0j w) (do w <- ix e2' "modal_b" ;; add_0j w)).
    { apply lag_bind; [lg E2|]. intro. apply lag_refl. }
    destruct H1 as [->| ->]; [|left; reflexivity].
    destruct (do w <- ix e2' "modal_b" ;; add_0j w) as [b|x]; right; split; try reflexivity; [apply near_put; exact E2|exact E2]. }
  destruct (prep55 e) as [e1 rt], (prep55 e') as [e1' rt']. cbn [fst snd] in P. cbn [wp_items].
  destruct P as [->|[-> E1]]; [apply t_stop|].
  destruct rt' as [t|x]; [|apply trail_refl]. cbv zeta.
  rewrite (near_mem k e1 e1' "r4" E1), (near_mem k e1 e1' "r5" E1), (near_mem k e1 e1' "r6" E1) by each Hk.
  generalize (dmem e1' (KS "r4") && dmem e1' (KS "r5") && dmem e1' (KS "r6"))%bool. intro six.
  assert (H1 : lag k (do v <- ix e1 "r1" ;; np_iscomplex v) (do v <- ix e1' "r1" ;; np_iscomplex v)).
  { apply lag_bind; [lg E1|]. intro. apply lag_refl. }
  destruct H1 as [->| ->]; [|apply t_stop].
  destruct (do v <- ix e1' "r1" ;; np_iscomplex v) as [cp|x]; [|apply trail_refl].
  apply t_same. cbn [map app]. unfold txt.
  repeat (apply trail_lag; [lg E1|]).
  apply trail_app.
  - unfold recs7_8, txt. destruct (t =? 2)%Z; [tr E1|]. destruct (t =? 5)%Z; tr E1.
  - assert (H2 : lag k (do v <- ix e1 "node_nums" ;; py_len v) (do v <- ix e1' "node_nums" ;; py_len v)).
    { apply lag_bind; [lg E1|]. intro. apply lag_refl. }
    destruct H2 as [->| ->]; [|apply t_stop].
    destruct (do v <- ix e1' "node_nums" ;; py_len v) as [n|x]; [|apply trail_refl].
    apply trail_app; [|apply trail_refl]. apply trail_flat. intro i.
    unfold node55, txt. cbn [map]. destruct cp; [|destruct six]; tr E1.
Qed.

Definition like58 (k : string) (p p' : pre58) : Prop :=
  near k (p_d p) (p_d p') /\ p_n p = p_n p' /\ p_r p = p_r p' /\ p_dbl p = p_dbl p' /\ p_nb p = p_nb p' /\
  p_even p = p_even p' /\ p_dx p = p_dx p'.
Lemma prep_lag58 : forall k fd e e', In k need58 -> near k e e' ->
  prepare58_write e fd = Err (KeyError k) \/
  match prepare58_write e fd, prepare58_write e' fd with
  | Ok p, Ok p' => like58 k p p'
  | Err x, Err x' => x = x'
  | _, _ => False
  end.
Proof.
  intros k fd e e' Hk E. unfold prepare58_write.
  destruct (lag_ix k e e' "data" E) as [->| ->]; [|left; reflexivity].
  destruct (ix e' "data") as [data|x]; cbn [rbind]; [|right; reflexivity].
  destruct (py_len data) as [n|x]; cbn [rbind]; [|right; reflexivity].
  destruct (np_iscomplex data) as [c|x]; cbn [rbind]; [|right; reflexivity].
  cbv zeta.
  match goal with |- context [ix ?x "ord_data_type"] => assert (E1 : near k x (if fd then dput e' (KS "ord_data_type") (VInt (if c then 6 else 4)) else e')) end.
  { destruct fd; [apply near_put|]; exact E. }
  revert E1. match goal with |- near _ ?x ?y -> _ => generalize x, y end. intros e1 e1' E1.
  destruct (lag_ix k e1 e1' "ord_data_type" E1) as [->| ->]; [|left; reflexivity].
  destruct (ix e1' "ord_data_type") as [odt|x]; cbn [rbind]; [|right; reflexivity].
  set (dbl := if eq_one_of odt [4; 6]%Z then Ok true else if eq_one_of odt [2; 5]%Z then Ok false else Err UnboundLocalError).
  clearbody dbl.
  set (nb := (do b <- dbl ;; Ok (Z.of_nat n * (if b then 8 else 4))%Z)). clearbody nb.
  rewrite (near_mem k e1 e1' "n_bytes" E1) by each Hk.
  assert (T : forall e2 e2', near k e2 e2' ->
    let f d2 := (do sp <- ix d2 "abscissa_spacing" ;;
      do even <- truthy sp ;;
      do x0 <- at_ (ix d2 "x") 0 ;;
      do x1 <- at_ (ix (dput d2 (KS "abscissa_min") x0) "x") 1 ;;
      do dx <- num_sub x1 x0 ;;
      Ok {| p_d := dput d2 (KS "abscissa_min") x0; p_n := n; p_r := negb c; p_dbl := dbl; p_nb := nb; p_even := even; p_dx := dx |}) in
    f e2 = Err (KeyError k) \/ match f e2, f e2' with Ok p, Ok p' => like58 k p p' | Err x, Err x' => x = x' | _, _ => False end).
  { intros e2 e2' E2. cbv zeta.
    destruct (lag_ix k e2 e2' "abscissa_spacing" E2) as [->| ->]; [|left; reflexivity].
    destruct (ix e2' "abscissa_spacing") as [sp|x]; cbn [rbind]; [|right; reflexivity].
    destruct (truthy sp) as [ev|x]; cbn [rbind]; [|right; reflexivity].
    destruct (lag_at k _ _ 0%Z (lag_ix k e2 e2' "x" E2)) as [->| ->]; [|left; reflexivity].
    destruct (at_ (ix e2' "x") 0) as [x0|x]; cbn [rbind]; [|right; reflexivity].
    pose proof (near_put k e2 e2' (KS "abscissa_min") x0 E2) as E3.
    destruct (lag_at k _ _ 1%Z (lag_ix k _ _ "x" E3)) as [->| ->]; [|left; reflexivity].
    destruct (at_ (ix (dput e2' (KS "abscissa_min") x0) "x") 1) as [x1|x]; cbn [rbind]; [|right; reflexivity].
    destruct (num_sub x1 x0) as [dx|x]; cbn [rbind]; [|right; reflexivity].
    right. repeat split; cbn [p_d p_n p_r p_dbl p_nb p_even p_dx]; auto. }
  destruct (dmem e1' (KS "n_bytes")).
  - destruct nb as [b|x]; cbn [rbind]; [|right; reflexivity]. apply T. apply near_put. exact E1.
  - cbn [rbind]. apply T. exact E1.
Qed.
Lemma trail58 : forall ov fd k e e', In k need58 -> near k e e' -> trail k (wp_items (write58 ov fd e)) (wp_items (write58 ov fd e')).
Proof.
  intros ov fd k e e' Hk E. unfold write58.
  destruct (lag_ix k e e' "func_type" E) as [->| ->]; [|apply t_stop].
  destruct (ix e' "func_type") as [ft|x]; [|apply trail_refl].
  destruct (negb _); [apply trail_refl|].
  assert (E0 : near k (opt_fields e defaults58) (opt_fields e' defaults58)) by (apply near_opt; [exact E|each Hk]).
  revert E0. generalize (opt_fields e defaults58) (opt_fields e' defaults58). intros e0 e0' E0.
  destruct (prep_lag58 k fd e0 e0' Hk E0) as [->|P]; [apply t_stop|].
  destruct (prepare58_write e0 fd) as [p|x], (prepare58_write e0' fd) as [p'|x']; try contradiction; [|subst; apply trail_refl].
  destruct p as [pd pn pr pb pnb pe px], p' as [pd' pn' pr' pb' pnb' pe' px'].
  destruct P as (E1 & P2 & P3 & P4 & P5 & P6 & P7). cbn [p_d p_n p_r p_dbl p_nb p_even p_dx] in *. subst pn' pr' pb' pnb' pe' px'.
  cbv zeta. cbn [wp_items]. apply t_same.
  assert (H1 : lag k (do v <- ix pd "binary" ;; truthy v) (do v <- ix pd' "binary" ;; truthy v)).
  { apply lag_bind; [lg E1|]. intro. apply lag_refl. }
  destruct H1 as [->| ->]; [|apply t_stop].
  destruct (do v <- ix pd' "binary" ;; truthy v) as [bin|x]; [|apply trail_refl].
  apply t_same. apply trail_app.
  - unfold header58. cbn [p_d p_n p_r p_dbl p_nb p_even p_dx map app]. unfold axis_line, txt.
    repeat (apply trail_lag; [lg E1; (apply lag_bind; [lg E1|intro; apply lag_refl])|]). apply t_nil.
  - assert (H2 : lag k (payload58 pd pn pr pe) (payload58 pd' pn pr pe)).
    { unfold payload58. apply lag_bind; [lg E1|]. intro data. destruct pr, pe; try apply lag_refl;
        (apply lag_bind; [lg E1|intro; apply lag_refl]). }
    destruct H2 as [->| ->]; [apply trail_refl|apply t_stop].
Qed.

(* ------------------------------------------------------------------ *)
(** ** C79 *)

(** The types whose writers name the missing key, with the keys they require
    (the writers' subscripts without a default): dataset_15.py:39-51,
    dataset_18.py:48-68, dataset_55.py:370-448, dataset_58.py:830-957,
    dataset_82.py:56-63, dataset_151.py:64-72, dataset_164.py:54-56,
    dataset_2400.py:65-73. *)
Definition required : list (Z * (string * list string)) :=
  [(15%Z, ("15", need15)); (18%Z, ("18", need18)); (55%Z, ("55", need55)); (58%Z, ("58", need58)); (82%Z, ("82", need82));
   (151%Z, ("151", need151)); (164%Z, ("164", need164)); (2400%Z, ("2400", []))].
Definition missing_message (k no : string) : exc :=
  PyException ("The required key '" ++ k ++ "' not present when writing data-set #" ++ no)%string.

Lemma sapp_length : forall a b, String.length (a ++ b) = String.length a + String.length b.
Proof. induction a; intro b; cbn [append String.length]; [reflexivity|]. rewrite IHa. reflexivity. Qed.
Lemma sapp_inj : forall a b t, (a ++ t = b ++ t)%string -> a = b.
Proof.
  induction a as [|x a IH]; intros [|y b] t E; cbn [append] in E.
  - reflexivity.
  - exfalso. apply (f_equal String.length) in E. cbn [String.length] in E. rewrite sapp_length in E. lia.
  - exfalso. apply (f_equal String.length) in E. cbn [String.length] in E. rewrite sapp_length in E. lia.
  - injection E as -> E. f_equal. exact (IH _ _ E).
Qed.
Lemma wrap_missing : forall n e k, wrap_write n e = missing_message k n -> e = KeyError k.
Proof.
  intros n e k E. unfold missing_message in E. destruct e; cbn [wrap_write] in E; try discriminate.
  injection E as E. apply sapp_inj in E. subst. reflexivity.
Qed.

(** Every one of these writers reports through the same wrapper. *)
Lemma wrap15 : forall d, wp_wrap (write15 d) = wrap_write "15".
Proof. intro d. unfold write15. destruct (do v <- ix d "node_nums" ;; py_len v); reflexivity. Qed.
Lemma wrap18 : forall d, wp_wrap (write18 d) = wrap_write "18".
Proof. intro d. unfold write18. destruct (do v <- ix d "cs_num" ;; py_len v); reflexivity. Qed.
Lemma wrap55 : forall d, wp_wrap (write55 d) = wrap_write "55".
Proof. intro d. unfold write55. destruct (prep55 d). reflexivity. Qed.
Lemma wrap58 : forall ov fd d, wp_wrap (write58 ov fd d) = wrap_write "58".
Proof.
  intros ov fd d. unfold write58. destruct (ix d "func_type"); [|reflexivity]. destruct (negb _); [reflexivity|].
  destruct (prepare58_write _ fd); reflexivity.
Qed.

Lemma wrap_dispatch : forall n no req, In (n, (no, req)) required -> forall c m fd e,
  wp_wrap (write_dispatch c m fd (VInt n) e) = wrap_write no.
Proof.
  intros n no req H c m fd e. cbn [required In] in H.
  repeat (destruct H as [H|H]; [injection H as <- <- <-|]); [..|destruct H].
  - exact (wrap15 e).
  - exact (wrap18 e).
  - exact (wrap55 e).
  - exact (wrap58 _ fd e).
  - reflexivity.
  - reflexivity.
  - reflexivity.
  - reflexivity.
Qed.
Lemma steps_dispatch : forall n no req, In (n, (no, req)) required -> forall c m fd d e, over d e ->
  Forall (step_ok d req) (wp_items (write_dispatch c m fd (VInt n) e)).
Proof.
  intros n no req H c m fd d e O. cbn [required In] in H.
  repeat (destruct H as [H|H]; [injection H as <- <- <-|]); [..|destruct H].
  - exact (steps15 d e O).
  - exact (steps18 d e O).
  - exact (steps55 d e O).
  - exact (steps58 _ fd d e O).
  - exact (steps82 d e O).
  - exact (steps151 c d e O).
  - exact (steps164 d e O).
  - exact (steps2400 d e O).
Qed.
Lemma trail_dispatch : forall n no req, In (n, (no, req)) required -> forall c m fd k e e', In k req -> near k e e' ->
  trail k (wp_items (write_dispatch c m fd (VInt n) e)) (wp_items (write_dispatch c m fd (VInt n) e')).
Proof.
  intros n no req H c m fd k e e' K E. cbn [required In] in H.
  repeat (destruct H as [H|H]; [injection H as <- <- <-|]); [..|destruct H].
  - exact (trail15 k e e' K E).
  - exact (trail18 k e e' K E).
  - exact (trail55 k e e' K E).
  - exact (trail58 _ fd k e e' K E).
  - exact (trail82 k e e' K E).
  - exact (trail151 c k e e' K E).
  - exact (trail164 k e e' K E).
  - destruct K.
Qed.

(** The key a message names is one the writer requires, and the dictionary the
    caller passed does not have it. *)
Theorem C79_names_missing : forall n no req, In (n, (no, req)) required ->
  forall c m fd file u d k, dget d (KS "type") = Some (VInt n) ->
  w_exc (write_set c m fd file u d) = Some (missing_message k no) ->
  In k req /\ dget d (KS k) = None.
Proof.
  intros n no req H c m fd file u d k Ty. unfold write_set. rewrite Ty.
  set (rd := match dget d (KS "data") with None => Ok d | Some v => do v' <- np_nan_to_num v ;; Ok (dput d (KS "data") v') end).
  assert (R : no_key rd /\ forall e, rd = Ok e -> over d e).
  { unfold rd. destruct (dget d (KS "data")) as [v|].
    - pose proof (nk_nan_to_num v) as N. destruct (np_nan_to_num v) as [w|x]; cbn [rbind]; split; try nk; try exact N; intros e E; try discriminate.
      injection E as <-. apply over_put, over_refl.
    - split; [nk|]. intros e E. injection E as <-. apply over_refl. }
  clearbody rd. destruct R as [N R]. destruct rd as [e|x].
  2:{ cbn [w_exc]. intro E. injection E as ->. destruct N. }
  specialize (R e eq_refl). cbv zeta. rewrite (wrap_dispatch n no req H).
  pose proof (steps_dispatch n no req H c m fd d e R) as S.
  destruct (run_items _ (wp_items (write_dispatch c m fd (VInt n) e))) as [b [x|]] eqn:Run.
  - cbn [w_exc]. intro E. injection E as E. apply wrap_missing in E. subst x. exact (run_missing _ _ _ _ _ _ S Run).
  - rewrite refresh_some. cbn [w_exc]. discriminate.
Qed.
Print Assumptions C79_names_missing.

(** A refused dictionary that would be written if the required key [k] were
    added: the message names [k]. *)
Theorem C79_names_it : forall n no req, In (n, (no, req)) required ->
  forall c m fd file u d k v, dget d (KS "type") = Some (VInt n) ->
  In k req -> dget d (KS k) = None ->
  w_exc (write_set c m fd file u d) <> None ->
  w_exc (write_set c m fd file u (dput d (KS k) v)) = None ->
  w_exc (write_set c m fd file u d) = Some (missing_message k no).
Proof.
  intros n no req H c m fd file u d k v Ty K Miss. unfold write_set.
  assert (NT : k <> "type").
  { intros ->. rewrite Ty in Miss. discriminate. }
  assert (Ty' : dget (dput d (KS k) v) (KS "type") = Some (VInt n)).
  { rewrite dget_dput. cbn [key_eqb]. destruct (String.eqb_spec "type" k); [congruence|exact Ty]. }
  rewrite Ty, Ty'.
  assert (E : near k d (dput d (KS k) v)).
  { intro m'. rewrite dget_dput. destruct (key_eqb_spec m' (KS k)) as [->|N]; [right; auto|left; reflexivity]. }
  set (rd := match dget d (KS "data") with None => Ok d | Some w => do w' <- np_nan_to_num w ;; Ok (dput d (KS "data") w') end).
  set (rd' := match dget (dput d (KS k) v) (KS "data") with None => Ok (dput d (KS k) v) | Some w => do w' <- np_nan_to_num w ;; Ok (dput (dput d (KS k) v) (KS "data") w') end).
  assert (R : (exists x, rd' = Err x) \/ exists e e', rd = Ok e /\ rd' = Ok e' /\ near k e e').
  { unfold rd, rd'. destruct (String.eqb_spec k "data") as [->|ND].
    - rewrite Miss. rewrite dget_dput. cbn [key_eqb]. rewrite String.eqb_refl. destruct (np_nan_to_num v) as [w|x]; cbn [rbind].
      + right. eexists _, _. split; [reflexivity|]. split; [reflexivity|].
        intro m'. rewrite !dget_dput. destruct (key_eqb_spec m' (KS "data")) as [->|N]; [right; auto|left; reflexivity].
      + left. eauto.
    - rewrite dget_dput. cbn [key_eqb]. destruct (String.eqb_spec "data" k) as [|_]; [congruence|].
      destruct (dget d (KS "data")) as [w|]; [|right; eauto].
      destruct (np_nan_to_num w) as [w'|x]; cbn [rbind]; [|left; eauto].
      right. eexists _, _. split; [reflexivity|]. split; [reflexivity|]. apply near_put. exact E. }
  clearbody rd rd'. destruct R as [[x ->]|(e & e' & -> & -> & E')]; [intros _; discriminate|].
  cbv zeta. rewrite (wrap_dispatch n no req H).
  pose proof (trail_dispatch n no req H c m fd k e e' K E') as T.
  set (s0 := match m, file with Add, Some b => b | _, _ => [] end). clearbody s0.
  destruct (trail_run k _ _ T s0) as [Q|[b Q]]; rewrite Q.
  - destruct (run_items s0 (wp_items (write_dispatch c m fd (VInt n) e'))) as [b [x|]]; [discriminate|].
    rewrite !refresh_some. cbn [w_exc]. congruence.
  - cbn [w_exc wrap_write]. reflexivity.
Qed.
Print Assumptions C79_names_it.

(** A caller who adds the key the message names and tries again, whatever has
    become of the file and the object in between: no key is asked for twice, and all
    of them were missing from the start. *)
Inductive asked (no : string) : dict -> list string -> Prop :=
| asked_none : forall d, asked no d []
| asked_more : forall c m fd file u d k v ks, w_exc (write_set c m fd file u d) = Some (missing_message k no) ->
    asked no (dput d (KS k) v) ks -> asked no d (k :: ks).
Theorem C79_asked_once : forall n no req, In (n, (no, req)) required ->
  forall d ks, dget d (KS "type") = Some (VInt n) -> asked no d ks ->
  NoDup ks /\ length ks <= length req /\ Forall (fun k => In k req /\ dget d (KS k) = None) ks.
Proof.
  intros n no req H d ks Ty A. cut (NoDup ks /\ Forall (fun k => In k req /\ dget d (KS k) = None) ks).
  { intros [N F]. split; [exact N|]. split; [|exact F]. apply NoDup_incl_length; [exact N|].
    intros k I. rewrite Forall_forall in F. exact (proj1 (F k I)). }
  induction A as [d|c m fd file u d k v ks E A IH]; [split; constructor|].
  destruct (C79_names_missing n no req H c m fd file u d k Ty E) as [K1 K2].
  assert (NT : k <> "type") by (intros ->; rewrite Ty in K2; discriminate).
  assert (Ty' : dget (dput d (KS k) v) (KS "type") = Some (VInt n)).
  { rewrite dget_dput. cbn [key_eqb]. destruct (String.eqb_spec "type" k); [congruence|exact Ty]. }
  destruct (IH Ty') as [N F]. split.
  - constructor; [|exact N]. intro I. rewrite Forall_forall in F. destruct (F k I) as [_ X].
    rewrite dget_dput in X. cbn [key_eqb] in X. rewrite String.eqb_refl in X. discriminate.
  - constructor; [auto|]. eapply Forall_impl; [|exact F]. intros j [J1 J2]. split; [exact J1|].
    rewrite dget_dput in J2. cbn [key_eqb] in J2. destruct (String.eqb j k); [discriminate|exact J2].
Qed.
Print Assumptions C79_asked_once.

(** Units without a temperature offset, and a response function without the
    response node; with the key both are written. *)
Definition units_ex : dict :=
  [(KS "type", VInt 164); (KS "units_code", VInt 1); (KS "length", VInt 1); (KS "force", VInt 1); (KS "temp", VInt 1)].
Definition frf_ex : dict :=
  [(KS "type", VInt 58); (KS "func_type", VInt 4); (KS "rsp_dir", VInt 3); (KS "ref_node", VInt 1); (KS "ref_dir", VInt 3);
   (KS "ord_data_type", VInt 2); (KS "orddenom_spec_data_type", VInt 13);
   (KS "data", VArr DInt [VInt 1; VInt 2]); (KS "x", VArr DInt [VInt 0; VInt 1])].
Definition clock_ex : clock := {| now_date := lit "16-Nov-26"; now_time := lit "22:00:00" |}.
Example C79_example :
  In (164%Z, ("164", need164)) required /\ In (58%Z, ("58", need58)) required /\
  w_exc (write_set clock_ex Overwrite true None uff0 units_ex) = Some (missing_message "temp_offset" "164") /\
  w_exc (write_set clock_ex Overwrite true None uff0 (dput units_ex (KS "temp_offset") (VInt 0))) = None /\
  w_exc (write_set clock_ex Overwrite true None uff0 frf_ex) = Some (missing_message "rsp_node" "58") /\
  w_exc (write_set clock_ex Overwrite true None uff0 (dput frf_ex (KS "rsp_node") (VInt 4))) = None /\
  w_exc (write_set clock_ex Overwrite true None uff0 (dput frf_ex (KS "rsp_node") (VStr (lit "four")))) =
    Some (PyException "Error writing data-set #58").
Proof.
  split; [cbn; tauto|]. split; [cbn; tauto|]. repeat split; vm_compute; reflexivity.
Qed.
(** From units with only their type: five keys, one after the other. *)
Example C79_asked_example : asked "164" [(KS "type", VInt 164)] ["units_code"; "length"; "force"; "temp"; "temp_offset"].
Proof.
  repeat (apply (asked_more _ clock_ex Overwrite true None uff0 _ _ (VInt 1)); [vm_compute; reflexivity|]). apply asked_none.
Qed.
