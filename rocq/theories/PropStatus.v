(** C81: what [get_supported_sets] and [get_status] report. *)
From Coq Require Import String List NArith ZArith Bool Lia.
Import ListNotations.
From Verif Require Import PyBase PyNum PyVal Utf8 Tools DsNodes DsHeaders DsGroups Ds55 Ds58 Ds2414 Uff Facts IntFacts Scan Container Append ContainerThms PropContainer World PropWorld PropMemory.
From Coq Require Import Lia.
Open Scope string_scope.
Open Scope list_scope.
Open Scope nat_scope.

(* ------------------------------------------------------------------ *)
(** ** Supported types *)

(** pyuff.py:65 [_SUPPORTED_SETS], returned by [get_supported_sets] (pyuff.py:118-120). *)
Definition supported_sets : list str :=
  map lit ["15"; "18"; "55"; "58"; "58b"; "82"; "151"; "164"; "1858"; "2400"; "2411"; "2412"; "2414"; "2420"; "2429"; "2467"].
(** Sets of the type are passed over: reading gives the type alone; writing adds
    nothing and raises nothing. *)
Definition not_read (t : Z) : Prop := forall block ho, extract_set t block ho = Ok [(KS "type", VInt t)].
Definition not_written (ty : pyval) : Prop := forall c fd b u d, dget d (KS "type") = Some ty -> dget d (KS "data") = None ->
  w_exc (write_set c Add fd (Some b) u d) = None /\ w_file (write_set c Add fd (Some b) u d) = Some b.

Definition types15 : list Z := [15; 18; 55; 58; 82; 151; 164; 1858; 2400; 2411; 2412; 2414; 2420; 2429; 2467]%Z.
Lemma listed : forall t, In (dec_Z t) supported_sets <-> In t types15.
Proof.
  intro t. split.
  - intro H. assert (P : exists s, In s supported_sets /\ py_int s = Ok t) by (exists (dec_Z t); split; [exact H|apply py_int_dec]).
    destruct P as (s & I & E). unfold supported_sets in I. cbn [map In] in I.
    repeat (destruct I as [<-|I]; [vm_compute in E; first [discriminate E|injection E as <-; cbn; tauto]|]). destruct I.
  - intro H. cbn [types15 In] in H. repeat (destruct H as [<-|H]; [vm_compute; tauto|]). destruct H.
Qed.
Definition junk : bytes := concat (repeat (lit "x y z" ++ [LF]) 30).
Lemma junk_read : forall t, In t types15 -> extract_set t junk false <> Ok [(KS "type", VInt t)].
Proof. intros t H. cbn [types15 In] in H. repeat (destruct H as [<-|H]; [vm_compute; discriminate|]). destruct H. Qed.
Definition no_clock : clock := {| now_date := []; now_time := [] |}.
Lemma short_write : forall t, In t types15 -> ~ not_written (VInt t).
Proof.
  intros t H N. specialize (N no_clock true [] uff0 [(KS "type", VInt t)] eq_refl eq_refl). destruct N as [N1 N2].
  cbn [types15 In] in H.
  repeat (destruct H as [<-|H]; [first [vm_compute in N1; discriminate N1|vm_compute in N2; discriminate N2]|]). destruct H.
Qed.
Lemma other_written : forall ty, (forall t, In t types15 -> py_eqZ ty t = false) -> not_written ty.
Proof.
  intros ty H c fd b u d Ty D. unfold write_set. rewrite Ty, D. cbv zeta.
  assert (E : wp_items (write_dispatch c Add fd ty d) = []).
  { unfold write_dispatch. cbv zeta. rewrite !H by (cbn; tauto). reflexivity. }
  rewrite E. cbn [run_items]. rewrite refresh_some. split; reflexivity.
Qed.
(** A type is listed exactly if its sets are read, and exactly if they are
    written. *)
Theorem C81_supported : forall t, (In (dec_Z t) supported_sets <-> ~ not_read t) /\ (In (dec_Z t) supported_sets <-> ~ not_written (VInt t)).
Proof.
  intro t. rewrite !listed. destruct (in_dec Z.eq_dec t types15) as [I|N].
  - split; (split; [intros _|intros _; exact I]).
    + intro H. exact (junk_read t I (H junk false)).
    + exact (short_write t I).
  - split; (split; [contradiction|intro H; exfalso; apply H]).
    + intros block ho. unfold extract_set. cbv zeta.
      repeat (match goal with |- context [(t =? ?k)%Z] => destruct (Z.eqb_spec t k) as [->|_]; [exfalso; apply N; cbn; tauto|] end). reflexivity.
    + apply other_written. intros k K. cbn [py_eqZ]. apply Z.eqb_neq. intros ->. exact (N K).
Qed.
Print Assumptions C81_supported.
(** The list has texts; a set whose type is such a text is silently not written. *)
Theorem C81_text_refuted : forall s, In s supported_sets -> not_written (VStr s).
Proof. intros s _. apply other_written. reflexivity. Qed.
Print Assumptions C81_text_refuted.

(* ------------------------------------------------------------------ *)
(** ** Status *)

Definition present (w : world) (g : str) : bool := match w_files w g with Some _ => true | None => false end.
Definition reports (w : world) (i : nat) (b : bool) : Prop := snd (act w (AskStatus i)) = GaveBool b.
Lemma reports_iff : forall w i n u b, w_objs w i = Some (n, u) -> (reports w i b <-> refreshed u = b).
Proof.
  intros w i n u b H. unfold reports. cbn [act]. unfold on_obj. rewrite H. cbn [snd]. split; [intro E; injection E as ->; reflexivity|intros ->; reflexivity].
Qed.
Lemma refresh_flag : forall f u u' b, refresh f u = Ok (u', b) -> refreshed u' = b /\ b = match f with Some _ => true | None => false end.
Proof.
  intros [g|] u u' b H.
  - rewrite refresh_some in H. injection H as <- <-. split; [|reflexivity]. destruct (extents g); reflexivity.
  - cbn [refresh] in H. injection H as <- <-. split; reflexivity.
Qed.
Lemma refresh_ok : forall f u, exists u' b, refresh f u = Ok (u', b).
Proof. intros [g|] u; [rewrite refresh_some|]; eexists _, _; reflexivity. Qed.
Lemma sync_flag : forall f u, exists u', sync f u = Ok u' /\ refreshed u' = (refreshed u || match f with Some _ => true | None => false end)%bool.
Proof.
  intros f u. unfold sync. destruct (refreshed u) eqn:R; [exists u; auto|]. destruct (refresh_ok f u) as (u' & b & E). rewrite E. cbn [rbind].
  exists u'. split; [reflexivity|]. destruct (refresh_flag _ _ _ _ E) as [-> ->]. reflexivity.
Qed.

(** After a construction the status tells whether the file is there. *)
Theorem C81_open : forall w i fn fn' n, chosen fn fn' = Some n -> reports (fst (act w (DoOpen i fn fn'))) i (present w n).
Proof.
  intros w i fn fn' n C. cbn [act]. rewrite C. unfold uff_new. destruct (refresh_ok (w_files w n) uff0) as (u & b & E). rewrite E. cbn [rbind fst].
  eapply reports_iff; [cbn [w_objs]; apply obj_same|]. destruct (refresh_flag _ _ _ _ E) as [-> ->]. reflexivity.
Qed.
Print Assumptions C81_open.
(** After [refresh] likewise, and that is what [refresh] returns. *)
Theorem C81_refresh : forall w i n u, w_objs w i = Some (n, u) ->
  snd (act w (DoRefresh i)) = GaveBool (present w n) /\ reports (fst (act w (DoRefresh i))) i (present w n).
Proof.
  intros w i n u Hi. unfold present. cbn [act]. unfold on_obj. rewrite Hi. destruct (refresh_ok (w_files w n) u) as (u' & b & E). rewrite E. unfold ask. cbn [fst snd].
  destruct (refresh_flag _ _ _ _ E) as [F B]. split; [rewrite B; reflexivity|]. eapply reports_iff; [cbn [w_objs]; apply obj_same|]. rewrite F. exact B.
Qed.
Print Assumptions C81_refresh.
(** Questions about the sets and readings look at the file only if the status is
    False. *)
Theorem C81_question : forall w i n u a, w_objs w i = Some (n, u) ->
  (a = AskN i \/ a = AskTypes i \/ a = AskFormats i \/ exists s ho, a = DoRead i s ho) ->
  forall b, reports w i b -> reports (fst (act w a)) i (b || present w n).
Proof.
  intros w i n u a Hi Ha b Hb. apply (reports_iff _ _ _ _ _ Hi) in Hb. subst b. unfold present.
  destruct (sync_flag (w_files w n) u) as (u' & E & F).
  assert (K : forall k, (exists o, k n (w_files w n) u = (w_files w n, u', o)) ->
    reports (fst (on_obj w i k)) i (refreshed u || match w_files w n with Some _ => true | None => false end)).
  { intros k [o Hk]. unfold on_obj. rewrite Hi, Hk. cbn [fst]. eapply reports_iff; [cbn [w_objs]; apply obj_same|]. exact F. }
  destruct Ha as [->|[->|[->|(s & ho & ->)]]]; cbn [act].
  1,2,3: apply K; unfold ask, get_n_sets, get_set_types, get_set_formats; rewrite E; cbn [rbind]; eauto.
  destruct (w_files w n) as [g|] eqn:G.
  - apply K. destruct (read_sets (Some g) u s ho) as [[u1 r]|x] eqn:R.
    + apply read_sets_sync in R. rewrite E in R. injection R as <-. eauto.
    + unfold after_read. rewrite E. eauto.
  - unfold on_obj. rewrite Hi, G. cbn [read_sets after_read fst]. eapply reports_iff; [cbn [w_objs]; apply obj_same|]. rewrite orb_false_r. reflexivity.
Qed.
Print Assumptions C81_question.

(** After a writing call the status is True if it was before or if at least one of
    the sets was written. *)
Lemma write_flag : forall l c m fd f u f' u' e, write_list c m fd f u l = (f', u', e) ->
  (refreshed u' = true <-> refreshed u = true \/ exists a r f1 u1, l = a ++ r /\ a <> [] /\ write_list c m fd f u a = (f1, u1, None)).
Proof.
  induction l as [|d l IH]; intros c m fd f u f' u' e; cbn [write_list].
  - intro E. injection E as _ <- _. split; [auto|]. intros [H|(a & r & f1 & u1 & E & N & _)]; [exact H|]. destruct a; [congruence|discriminate].
  - destruct (w_exc (write_set c m fd f u d)) as [x|] eqn:X.
    + intro E. injection E as _ <- _. assert (U : w_uff (write_set c m fd f u d) = u).
      { revert X. unfold write_set. destruct (dget d (KS "type")); [|reflexivity]. destruct (match dget d (KS "data") with None => _ | Some _ => _ end) as [d1|y]; [|reflexivity]. cbv zeta.
        destruct (run_items _ _) as [b [y|]]; [reflexivity|]. rewrite refresh_some. discriminate. }
      rewrite U. split; [auto|]. intros [H|(a & r & f1 & u1 & E & N & W)]; [exact H|]. destruct a as [|d' a]; [congruence|]. injection E as <- ->. cbn [write_list] in W. rewrite X in W. discriminate.
    + intro E. assert (U : refreshed (w_uff (write_set c m fd f u d)) = true).
      { revert X. unfold write_set. destruct (dget d (KS "type")); [|discriminate]. destruct (match dget d (KS "data") with None => _ | Some _ => _ end) as [d1|y]; [|discriminate]. cbv zeta.
        destruct (run_items _ _) as [b [y|]]; [discriminate|]. rewrite refresh_some. intros _. cbn [w_uff]. destruct (extents b); reflexivity. }
      apply IH in E. split; [|intros _; apply E; left; exact U].
      intros _. right. exists [d], l, (w_file (write_set c m fd f u d)), (w_uff (write_set c m fd f u d)). split; [reflexivity|]. split; [discriminate|]. cbn [write_list]. rewrite X. reflexivity.
Qed.
Theorem C81_write : forall w i n u c ds mode fd b, w_objs w i = Some (n, u) -> reports w i b ->
  (snd (act w (DoWrite i c ds mode fd)) = Done -> reports (fst (act w (DoWrite i c ds mode fd))) i true) /\
  (reports (fst (act w (DoWrite i c ds mode fd))) i true <->
     b = true \/ exists a r f1 u1, ds = a ++ r /\ write_sets c (w_files w n) u a mode fd = (f1, u1, None)).
Proof.
  intros w i n u c ds mode fd b Hi Hb. apply (reports_iff _ _ _ _ _ Hi) in Hb. subst b. cbn [act]. unfold on_obj. rewrite Hi.
  destruct (write_sets c (w_files w n) u ds mode fd) as [[f' u'] e] eqn:W. cbn [fst snd].
  assert (Q : forall b, reports {| w_files := set_file (w_files w) n f'; w_objs := set_obj (w_objs w) i (n, u') |} i b <-> refreshed u' = b)
    by (intro b; eapply reports_iff; cbn [w_objs]; apply obj_same).
  rewrite !Q.
  assert (R : refreshed u' = true <-> refreshed u = true \/ exists a r f1 u1, ds = a ++ r /\ write_sets c (w_files w n) u a mode fd = (f1, u1, None)).
  { revert W. unfold write_sets. destruct ds as [|d0 ds].
    { intro E. injection E as _ <- _. split; [auto|]. intros [H|(a & r & f1 & u1 & E & N)]; [exact H|]. destruct a; discriminate. }
    destruct (parse_mode mode) as [m|x].
    - intro E. rewrite (write_flag _ _ _ _ _ _ _ _ _ E). split.
      + intros [H|(a & r & f1 & u1 & E1 & N & W1)]; [auto|]. right. exists a, r, f1, u1. split; [exact E1|]. destruct a; [congruence|exact W1].
      + intros [H|(a & r & f1 & u1 & E1 & W1)]; [auto|]. right. exists a, r, f1, u1. destruct a as [|a0 a]; [discriminate|]. split; [exact E1|]. split; [discriminate|exact W1].
    - intro E. injection E as _ <- _. split; [auto|]. intros [H|(a & r & f1 & u1 & E & N)]; [exact H|]. destruct a; discriminate. }
  split; [|exact R]. destruct e as [x|]; [discriminate|]. intros _. apply R. right. exists ds, [], f', u'. split; [rewrite app_nil_r; reflexivity|exact W].
Qed.
Print Assumptions C81_write.

(** Nothing else changes the status: calls on other objects, other questions,
    repairs, and changes of the file from outside. *)
Definition about (i : nat) (a : op) : bool :=
  match a with
  | DoOpen j fn fn' => Nat.eqb j i
  | DoRefresh j | AskN j | AskTypes j | AskFormats j | DoRead j _ _ | DoWrite j _ _ _ _ => Nat.eqb j i
  | _ => false
  end.
Theorem C81_others : forall w i n u a b, w_objs w i = Some (n, u) -> about i a = false -> reports w i b -> reports (fst (act w a)) i b.
Proof.
  intros w i n u a b Hi Ha Hb.
  assert (S : exists v, w_objs (fst (act w a)) i = Some (n, v) /\ refreshed v = refreshed u).
  { assert (K : forall j k, j <> i -> exists v, w_objs (fst (on_obj w j k)) i = Some (n, v) /\ refreshed v = refreshed u).
    { intros j k Hj. unfold on_obj. destruct (w_objs w j) as [[nj uj]|]; [|exists u; auto]. destruct (k nj (w_files w nj) uj) as [[f' u'] o]. cbn [fst w_objs].
      rewrite obj_other by congruence. exists u. auto. }
    assert (K0 : forall j k, (forall m f v, snd (fst (k m f v)) = v) -> exists v, w_objs (fst (on_obj w j k)) i = Some (n, v) /\ refreshed v = refreshed u).
    { intros j k Hk. destruct (Nat.eq_dec j i) as [->|Hj]; [|apply K; exact Hj]. unfold on_obj. rewrite Hi. specialize (Hk n (w_files w n) u).
      destruct (k n (w_files w n) u) as [[f' u'] o]. cbn [fst snd] in Hk. subst u'. cbn [fst w_objs]. rewrite obj_same. eauto. }
    destruct a as [j fn fn'|j|j|j|j|j|j|j|j s ho|j c ds mode fd|src tgt|g x]; cbn [about] in Ha; try apply Nat.eqb_neq in Ha; cbn [act];
      try (apply K; exact Ha); try (apply K0; reflexivity); try (exists u; split; [exact Hi|reflexivity]).
    - destruct (chosen fn fn') as [m|]; [|exists u; auto]. destruct (uff_new (w_files w m)); [|exists u; auto]. cbn [fst w_objs]. rewrite obj_other by congruence. eauto.
    - destruct (w_files w src); [|exists u; auto]. destruct (fix_58b b0); exists u; auto. }
  destruct S as (v & Hv & R). apply (reports_iff _ _ _ _ _ Hv). apply (reports_iff _ _ _ _ _ Hi) in Hb. congruence.
Qed.
Print Assumptions C81_others.

(** Once True, the status stays True until a construction or [refresh] finds no
    file, whatever else happens: also when the file has been deleted since. *)
Definition looks_again (i : nat) (a : op) : bool := match a with DoOpen j _ _ | DoRefresh j => Nat.eqb j i | _ => false end.
Theorem C81_keeps : forall h w i n u, w_objs w i = Some (n, u) -> reports w i true -> (forall a, In a h -> looks_again i a = false) ->
  reports (fst (program w h)) i true.
Proof.
  induction h as [|a h IH]; intros w i n u Hi Hr Hh; [exact Hr|].
  assert (Ha : looks_again i a = false) by (apply Hh; left; reflexivity).
  assert (S : reports (fst (act w a)) i true).
  { destruct (about i a) eqn:A; [|eapply C81_others; eassumption].
    destruct a as [j fn fn'|j|j|j|j|j|j|j|j s ho|j c ds mode fd|src tgt|g x]; cbn [about looks_again] in A, Ha; try discriminate; try congruence; apply Nat.eqb_eq in A; subst j.
    1,2,3,4: apply (C81_question w i n u _ Hi) with (b := true); [eauto 7|exact Hr].
    apply (C81_write w i n u c ds mode fd true Hi Hr). left. reflexivity. }
  cbn [program]. destruct (act w a) as [w1 o] eqn:E. cbn [fst] in S.
  assert (X : exists n1 u1, w_objs w1 i = Some (n1, u1)).
  { unfold reports in S. cbn [act] in S. unfold on_obj in S. destruct (w_objs w1 i) as [[n1 u1]|]; [eauto|discriminate]. }
  destruct X as (n1 & u1 & H1). specialize (IH w1 i n1 u1 H1 S (fun x I => Hh x (or_intror I))).
  destruct (program w1 h) as [w2 t]. exact IH.
Qed.
Print Assumptions C81_keeps.

(** An object on a file that is deleted: True until [refresh]. *)
Definition gone : list op := [DoOpen 0 (Some (lit "a")) None; Outside (lit "a") None; AskN 0; AskExists 0; AskStatus 0; DoRefresh 0; AskStatus 0].
Example C81_example :
  map snd (snd (program {| w_files := fun _ => Some []; w_objs := fun _ => None |} gone)) =
  [Done; Done; GaveNat 0; GaveBool false; GaveBool true; GaveBool false; GaveBool false] /\
  In (dec_Z 2414) supported_sets /\ ~ In (dec_Z 2413) supported_sets.
Proof. split; [vm_compute; reflexivity|]. split; [vm_compute; tauto|]. rewrite listed. cbn. intuition discriminate. Qed.
