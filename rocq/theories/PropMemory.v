(** Property C76: what an object remembers of its file, and C07, C08 for all
    contents. *)
From Coq Require Import String List NArith ZArith Bool Lia.
Import ListNotations.
From Verif Require Import PyBase PyNum PyVal Utf8 Tools DsHeaders DsGroups Ds58 Uff Facts Scan Container Append ContainerThms PropContainer World PropWorld.
From Verif Require Import RtHeads RtNodes PropHeads PropNodes.
From Coq Require Import Lia.
Open Scope string_scope.
Open Scope list_scope.
Open Scope nat_scope.

(** The index in the object is that of the content [f]. *)
Definition remembers (u : uff) (f : bytes) : Prop :=
  exists v, uff_new (Some f) = Ok v /\ block_ind u = block_ind v /\ n_sets u = n_sets v /\ set_types u = set_types v /\ set_formats u = set_formats v.

Lemma remembers_view : forall f, remembers (view f) f.
Proof. intro f. exists (view f). split; [apply uff_new_view|]. auto. Qed.
Lemma remembers_new : forall file u, uff_new file = Ok u -> remembers u (old_bytes file).
Proof.
  intros [f|] u H; cbn [old_bytes].
  - rewrite uff_new_view in H. injection H as <-. apply remembers_view.
  - injection H as <-. exists (view []). repeat split.
Qed.
Lemma remembers_flag : forall u f b, remembers u f ->
  remembers {| block_ind := block_ind u; refreshed := b; n_sets := n_sets u; set_types := set_types u; set_formats := set_formats u |} f.
Proof. intros u f b (v & H). exists v. exact H. Qed.
Lemma remembers_refresh : forall file u f u' b, remembers u f -> refresh file u = Ok (u', b) ->
  remembers u' f \/ exists g, file = Some g /\ remembers u' g.
Proof.
  intros [g|] u f u' b Hr H.
  - rewrite refresh_some in H. injection H as <- <-. destruct (extents g); [left; apply remembers_flag; assumption|].
    right. exists g. split; [reflexivity|apply remembers_view].
  - injection H as <- <-. left. apply remembers_flag. assumption.
Qed.
Lemma remembers_sync : forall file u f u', remembers u f -> sync file u = Ok u' ->
  remembers u' f \/ exists g, file = Some g /\ remembers u' g.
Proof.
  intros file u f u' Hr H. unfold sync in H. destruct (refreshed u); [injection H as <-; auto|].
  destruct (refresh file u) as [[u1 b]|e] eqn:E; [|discriminate]. injection H as <-. eapply remembers_refresh; eauto.
Qed.

Lemma read_set_same : forall file u n ho u' d, refreshed u = true -> read_set file u n ho = Ok (u', d) -> u' = u.
Proof.
  intros file u n ho u' d Hr H. unfold read_set in H. destruct file as [g|]; [|discriminate].
  unfold sync in H. rewrite Hr in H. cbn [rbind] in H.
  repeat match type of H with
  | context [if ?b then _ else _] => destruct b; try discriminate H
  | rbind ?r _ = _ => destruct r as [?|?]; cbn [rbind] in H; try discriminate H
  | (let '(_, _) := ?p in _) = _ => destruct p
  end; congruence.
Qed.
Lemma read_all_same : forall l file u ho u' ds, refreshed u = true -> read_all file u l ho = Ok (u', ds) -> u' = u.
Proof.
  induction l as [|n l IH]; intros file u ho u' ds Hr H; cbn [read_all] in H; [congruence|].
  destruct (read_set file u n ho) as [[u1 d]|e] eqn:E1; [|discriminate]. cbn [rbind] in H. apply read_set_same in E1; [|assumption]. subst u1.
  destruct (read_all file u l ho) as [[u2 ds2]|e] eqn:E2; [|discriminate]. cbn [rbind] in H. apply IH in E2; [|assumption]. congruence.
Qed.
Lemma sync_refreshed : forall g u u', sync (Some g) u = Ok u' -> refreshed u' = true.
Proof.
  intros g u u' H. unfold sync in H. destruct (refreshed u) eqn:E; [congruence|]. rewrite refresh_some in H. cbn [rbind] in H. injection H as <-.
  destruct (extents g); reflexivity.
Qed.
Lemma read_sets_sync : forall file u s ho u' r, read_sets file u s ho = Ok (u', r) -> sync file u = Ok u'.
Proof.
  intros file u s ho u' r H. unfold read_sets in H. cbv zeta in H. destruct file as [g|]; [|discriminate].
  destruct (sync (Some g) u) as [u1|e] eqn:E; [|discriminate]. cbn [rbind] in H. assert (Hr := sync_refreshed _ _ _ E).
  unfold try_any in H. destruct (read_all (Some g) u1 _ ho) as [[u2 ds]|e] eqn:Er; [|destruct e; discriminate]. cbn [rbind] in H. injection H as <- _.
  apply read_all_same in Er; [congruence|assumption].
Qed.

Lemma write_set_memory : forall c m fd file u d f, remembers u f ->
  exists b, w_file (write_set c m fd file u d) = Some b /\
    (remembers (w_uff (write_set c m fd file u d)) f \/ remembers (w_uff (write_set c m fd file u d)) b).
Proof.
  intros c m fd file u d f Hr. unfold write_set. cbv zeta.
  destruct (dget d (KS "type")) as [ty|]; [|eexists; split; [reflexivity|left; exact Hr]].
  match goal with |- context [match ?r with Ok _ => _ | Err _ => _ end] => destruct r as [d1|e] end; [|eexists; split; [reflexivity|left; exact Hr]].
  destruct (run_items _ _) as [b [e|]]; [eexists; split; [reflexivity|left; exact Hr]|].
  destruct (refresh (Some b) u) as [[u' x]|e] eqn:E; [|eexists; split; [reflexivity|left; exact Hr]].
  exists b. split; [reflexivity|]. cbn [w_uff]. destruct (remembers_refresh _ _ _ _ _ Hr E) as [H|(g & Hg & H)]; [auto|]. injection Hg as <-. auto.
Qed.
Lemma write_list_memory : forall ds c m fd file u f file' u' e, remembers u f -> write_list c m fd file u ds = (file', u', e) ->
  exists f', remembers u' f' /\ (f' = f \/ exists r, file' = Some (f' ++ r)).
Proof.
  induction ds as [|d ds IH]; intros c m fd file u f file' u' e Hr H; cbn [write_list] in H.
  - injection H as <- <- <-. eauto.
  - destruct (write_set_memory c m fd file u d f Hr) as (b & Hb & Hm).
    destruct (w_exc (write_set c m fd file u d)) as [ex|].
    + injection H as <- <- <-. destruct Hm as [Hm|Hm]; [eauto|]. exists b. split; [assumption|]. right. exists []. rewrite app_nil_r. assumption.
    + rewrite Hb in H. assert (P := write_list_add_prefix _ _ _ _ _ _ _ _ H). destruct P as [x ->].
      destruct Hm as [Hm|Hm]; [eapply IH; eauto|].
      destruct (IH _ _ _ _ _ _ _ _ _ Hm H) as (f' & Hf' & [->|Hx]); eauto.
Qed.
Lemma write_sets_memory : forall c file u ds mode fd f file' u' e, remembers u f -> write_sets c file u ds mode fd = (file', u', e) ->
  exists f', remembers u' f' /\ (f' = f \/ exists r, file' = Some (f' ++ r)).
Proof.
  intros c file u ds mode fd f file' u' e Hr H. unfold write_sets in H. destruct ds as [|d ds]; [injection H as <- <- <-; eauto|].
  destruct (parse_mode mode) as [m|ex]; [|injection H as <- <- <-; eauto]. eapply write_list_memory; eauto.
Qed.

(** Every object remembers nothing or a content for which [P] holds. *)
Definition remembered (P : str -> bytes -> Prop) (w : world) : Prop :=
  forall i n u, w_objs w i = Some (n, u) -> exists f, remembers u f /\ (f = [] \/ P n f).
Definition begins (f g : bytes) : Prop := exists r, g = f ++ r.
Lemma begins_refl : forall f, begins f f.
Proof. intro f. exists []. rewrite app_nil_r. reflexivity. Qed.

Lemma on_obj_memory : forall P w i k, remembered P w ->
  (forall n g f, w_files w n = Some g -> begins f g -> P n f) ->
  (forall n g f, w_files (fst (on_obj w i k)) n = Some g -> begins f g -> P n f) ->
  (forall n u f f' u' o, w_objs w i = Some (n, u) -> remembers u f -> k n (w_files w n) u = (f', u', o) ->
     exists f1, remembers u' f1 /\ (f1 = f \/ (exists g, w_files w n = Some g /\ begins f1 g) \/ (exists g, f' = Some g /\ begins f1 g))) ->
  remembered P (fst (on_obj w i k)).
Proof.
  intros P w i k Hr H1 H2 Hk j n u Hj. unfold on_obj in *. destruct (w_objs w i) as [[n0 u0]|] eqn:Ei; [|apply Hr in Hj; exact Hj].
  destruct (k n0 (w_files w n0) u0) as [[f' u'] o] eqn:Ek. cbn [fst w_objs w_files] in *.
  destruct (Nat.eq_dec j i) as [->|Hne].
  - rewrite obj_same in Hj. injection Hj as <- <-. destruct (Hr i n0 u0 Ei) as (f & Hf & Hp).
    destruct (Hk _ _ _ _ _ _ eq_refl Hf Ek) as (f1 & Hf1 & [->|[(g & Hg & Hb)|(g & Hg & Hb)]]).
    + eauto.
    + exists f1. split; [assumption|]. right. eapply H1; eauto.
    + exists f1. split; [assumption|]. right. apply (H2 n0 g f1); [rewrite set_same; assumption|assumption].
  - rewrite obj_other in Hj by assumption. eapply Hr. eauto.
Qed.
Lemma ask_memory : forall A (r : result (uff * A)) give file u f f' u' o,
  (forall u1 a, r = Ok (u1, a) -> remembers u1 f \/ exists g, file = Some g /\ remembers u1 g) -> remembers u f ->
  ask r give file u = (f', u', o) ->
  exists f1, remembers u' f1 /\ (f1 = f \/ (exists g, file = Some g /\ begins f1 g) \/ (exists g, f' = Some g /\ begins f1 g)).
Proof.
  intros A r give file u f f' u' o Hr Hu H. unfold ask in H. destruct r as [[u1 a]|e]; injection H as <- <- <-; [|eauto].
  destruct (Hr u1 a eq_refl) as [H|(g & Hg & H)]; [eauto|]. exists g. split; [assumption|]. right. left. exists g. split; [assumption|apply begins_refl].
Qed.
Lemma act_memory : forall P w a, remembered P w ->
  (forall n g f, w_files w n = Some g -> begins f g -> P n f) ->
  (forall n g f, w_files (fst (act w a)) n = Some g -> begins f g -> P n f) ->
  remembered P (fst (act w a)).
Proof.
  intros P w a Hr H1 H2.
  assert (G : forall A (q : uff -> A) u f file u1 (x : A), remembers u f -> (do v <- sync file u ;; Ok (v, q v)) = Ok (u1, x) ->
    remembers u1 f \/ exists g, file = Some g /\ remembers u1 g).
  { intros A q u f file u1 x Hu H. destruct (sync file u) as [v|e] eqn:E; [|discriminate]. injection H as <- _. eapply remembers_sync; eauto. }
  destruct a as [i fn fn'|i|i|i|i|i|i|i|i s ho|i c ds mode fd|src tgt|n b]; cbn [act] in H2 |- *.
  - destruct (chosen fn fn') as [n|]; [|exact Hr]. destruct (uff_new (w_files w n)) as [u|e] eqn:E; [|exact Hr].
    intros j n' u' Hj. cbn [fst w_objs] in *. destruct (Nat.eq_dec j i) as [->|Hne].
    + rewrite obj_same in Hj. injection Hj as <- <-. exists (old_bytes (w_files w n)). split; [apply remembers_new; assumption|].
      destruct (w_files w n) as [g|] eqn:Eg; [|left; reflexivity]. right. cbn [old_bytes]. eapply H1; [exact Eg|apply begins_refl].
    + rewrite obj_other in Hj by assumption. eapply Hr; eauto.
  - apply on_obj_memory; try assumption. intros n u f f' u' o Hi Hu Hk. eapply ask_memory; [|exact Hu|exact Hk].
    intros u1 x H. eapply remembers_refresh; eauto.
  - apply on_obj_memory; try assumption. intros n u f f' u' o Hi Hu Hk. eapply ask_memory; [|exact Hu|exact Hk]. intros u1 x H. eapply G; eauto.
  - apply on_obj_memory; try assumption. intros n u f f' u' o Hi Hu Hk. eapply ask_memory; [|exact Hu|exact Hk]. intros u1 x H. eapply G; eauto.
  - apply on_obj_memory; try assumption. intros n u f f' u' o Hi Hu Hk. eapply ask_memory; [|exact Hu|exact Hk]. intros u1 x H. eapply G; eauto.
  - apply on_obj_memory; try assumption. intros n u f f' u' o Hi Hu Hk. injection Hk as <- <- <-. eauto.
  - apply on_obj_memory; try assumption. intros n u f f' u' o Hi Hu Hk. injection Hk as <- <- <-. eauto.
  - apply on_obj_memory; try assumption. intros n u f f' u' o Hi Hu Hk. injection Hk as <- <- <-. eauto.
  - apply on_obj_memory; try assumption. intros n u f f' u' o Hi Hu Hk.
    assert (S : forall v, sync (w_files w n) u = Ok v ->
      exists f1, remembers v f1 /\ (f1 = f \/ (exists g, w_files w n = Some g /\ begins f1 g) \/ (exists g, f' = Some g /\ begins f1 g))).
    { intros v Hs. destruct (remembers_sync _ _ _ _ Hu Hs) as [H|(g & Hg & H)]; [eauto|]. exists g. split; [assumption|]. right. left.
      exists g. split; [assumption|apply begins_refl]. }
    destruct (read_sets (w_files w n) u s ho) as [[u1 r]|e] eqn:E; injection Hk as <- <- <-.
    + apply S. eapply read_sets_sync; eauto.
    + unfold after_read. destruct (w_files w n) as [g|] eqn:Eg; [|eauto]. destruct (sync (Some g) u) as [v|ex] eqn:Es; [|eauto]. apply S. reflexivity.
  - apply on_obj_memory; try assumption. intros n u f f' u' o Hi Hu Hk.
    destruct (write_sets c (w_files w n) u ds mode fd) as [[file' u1] e] eqn:E. injection Hk as <- <- <-.
    destruct (write_sets_memory _ _ _ _ _ _ _ _ _ _ Hu E) as (f1 & Hf1 & [->|(r & Hx)]); [eauto|].
    exists f1. split; [assumption|]. right. right. exists (f1 ++ r). split; [assumption|]. exists r. reflexivity.
  - destruct (w_files w src) as [data|]; [|exact Hr]. destruct (fix_58b data) as [out|e]; [|exact Hr]. exact Hr.
  - exact Hr.
Qed.
Lemma program_memory : forall P h w, remembered P w ->
  (forall h1 h2 n g f, h = h1 ++ h2 -> w_files (fst (program w h1)) n = Some g -> begins f g -> P n f) ->
  remembered P (fst (program w h)).
Proof.
  intros P. induction h as [|a h IH]; intros w Hr HP; [exact Hr|]. cbn [program].
  destruct (act w a) as [w1 o] eqn:Ea. destruct (program w1 h) as [w2 t] eqn:Ep. cbn [fst].
  assert (E1 : w1 = fst (act w a)) by (rewrite Ea; reflexivity). assert (E2 : w2 = fst (program w1 h)) by (rewrite Ep; reflexivity).
  rewrite E2. apply IH.
  - rewrite E1. apply act_memory; [assumption| |].
    + intros n g f Hg Hb. apply (HP [] (a :: h) n g f); [reflexivity|exact Hg|exact Hb].
    + intros n g f Hg Hb. apply (HP [a] h n g f); [reflexivity| |exact Hb]. cbn [program]. destruct (act w a) as [w1' o']. exact Hg.
  - intros h1 h2 n g f Eh Hg Hb. apply (HP (a :: h1) h2 n g f); [rewrite Eh; reflexivity| |exact Hb].
    cbn [program]. rewrite Ea. destruct (program w1 h1) as [w3 t3]. exact Hg.
Qed.

(** In any program that starts without objects: the index in an object of file [n]
    is empty or that of a content which was once the beginning of the file [n] (the
    whole of it, or the sets of a call before the one that failed).  It is never
    the index of another file, and never one put together from several contents. *)
Theorem C76_memory : forall w0 h w t i n u, (forall j, w_objs w0 j = None) -> program w0 h = (w, t) -> w_objs w i = Some (n, u) ->
  exists f, remembers u f /\
    (f = [] \/ exists h1 h2 g, h = h1 ++ h2 /\ w_files (fst (program w0 h1)) n = Some g /\ begins f g).
Proof.
  intros w0 h w t i n u H0 Hp Hi.
  assert (R := program_memory (fun n f => exists h1 h2 g, h = h1 ++ h2 /\ w_files (fst (program w0 h1)) n = Some g /\ begins f g) h w0).
  rewrite Hp in R. cbn [fst] in R. apply (R ltac:(intros j m v Hj; rewrite H0 in Hj; discriminate)) in Hi; [exact Hi|].
  intros h1 h2 m g f E Hg Hb. exists h1, h2, g. auto.
Qed.
Print Assumptions C76_memory.

(** Questions and readings do not look for changes: an object that has an index
    keeps it, whether the reading succeeds or not, and its answers are those of the
    index whatever the file system has become. *)
Definition question (i : nat) (a : op) : Prop :=
  a = AskN i \/ a = AskTypes i \/ a = AskFormats i \/ a = AskName i \/ a = AskExists i \/ a = AskStatus i \/ exists s ho, a = DoRead i s ho.
Theorem C76_questions : forall w i n u a, w_objs w i = Some (n, u) -> refreshed u = true -> question i a ->
  (forall j, w_objs (fst (act w a)) j = w_objs w j) /\ (forall g, w_files (fst (act w a)) g = w_files w g) /\
  snd (act w (AskN i)) = GaveNat (n_sets u) /\ snd (act w (AskTypes i)) = GaveInts (set_types u) /\
  snd (act w (AskFormats i)) = GaveInts (set_formats u) /\ snd (act w (AskStatus i)) = GaveBool true /\ snd (act w (AskName i)) = GaveStr n.
Proof.
  intros w i n u a Hi Hr Hq.
  assert (S : forall f, sync f u = Ok u) by (intro f; unfold sync; rewrite Hr; reflexivity).
  assert (K : forall k, (exists o, k n (w_files w n) u = (w_files w n, u, o)) ->
    (forall j, w_objs (fst (on_obj w i k)) j = w_objs w j) /\ (forall g, w_files (fst (on_obj w i k)) g = w_files w g)).
  { intros k [o Hk]. unfold on_obj. rewrite Hi, Hk. cbn [fst w_objs w_files]. split.
    - intro j. destruct (Nat.eq_dec j i) as [->|Hne]; [rewrite obj_same; congruence|apply obj_other; assumption].
    - intro g. apply set_id. }
  assert (Q : (forall j, w_objs (fst (act w a)) j = w_objs w j) /\ (forall g, w_files (fst (act w a)) g = w_files w g)).
  { destruct Hq as [->|[->|[->|[->|[->|[->|(s & ho & ->)]]]]]]; cbn [act]; apply K;
      try (eexists; unfold ask, get_n_sets, get_set_types, get_set_formats; rewrite ?S; reflexivity).
    destruct (read_sets (w_files w n) u s ho) as [[u' r]|e] eqn:E.
    - apply read_sets_sync in E. rewrite S in E. injection E as <-. eauto.
    - unfold after_read. destruct (w_files w n); [rewrite S|]; eauto. }
  split; [apply Q|]. split; [apply Q|]. cbn [act]. unfold on_obj. rewrite Hi. unfold ask, get_n_sets, get_set_types, get_set_formats. rewrite S. cbn [rbind].
  repeat split. rewrite Hr. reflexivity.
Qed.
Print Assumptions C76_questions.

(** The first question to an object without index makes it look; reading fails or
    not, the object then has the index. *)
Theorem C76_first_look : forall w i n u a g, w_objs w i = Some (n, u) -> refreshed u = false -> w_files w n = Some g ->
  (a = AskN i \/ a = AskTypes i \/ a = AskFormats i \/ exists s ho, a = DoRead i s ho) ->
  exists u', w_objs (fst (act w a)) i = Some (n, u') /\ refreshed u' = true /\ w_files (fst (act w a)) n = Some g /\
    refresh (Some g) u = Ok (u', true) /\ (uff_new (Some g) = Ok u' \/ uff_new (Some g) = Ok (view []) /\ n_sets u' = n_sets u /\ set_types u' = set_types u).
Proof.
  intros w i n u a g Hi Hr Hg Hq.
  assert (X : exists u', sync (Some g) u = Ok u' /\ refresh (Some g) u = Ok (u', true)).
  { unfold sync. rewrite Hr, refresh_some. eexists. split; reflexivity. }
  destruct X as (u' & Es & Er). exists u'.
  assert (K : forall k, (exists o, k n (w_files w n) u = (w_files w n, u', o)) ->
    w_objs (fst (on_obj w i k)) i = Some (n, u') /\ w_files (fst (on_obj w i k)) n = Some g).
  { intros k [o Hk]. unfold on_obj. rewrite Hi, Hk. cbn [fst w_objs w_files]. split; [apply obj_same|]. rewrite set_same. assumption. }
  assert (Q : w_objs (fst (act w a)) i = Some (n, u') /\ w_files (fst (act w a)) n = Some g).
  { destruct Hq as [->|[->|[->|(s & ho & ->)]]]; cbn [act]; apply K; rewrite Hg;
      try (eexists; unfold ask, get_n_sets, get_set_types, get_set_formats; rewrite Es; reflexivity).
    destruct (read_sets (Some g) u s ho) as [[u1 r]|e] eqn:E.
    - apply read_sets_sync in E. rewrite Es in E. injection E as <-. eauto.
    - unfold after_read. rewrite Es. eauto. }
  destruct Q as [Q1 Q2]. split; [exact Q1|]. split; [eapply sync_refreshed; eauto|]. split; [exact Q2|]. split; [exact Er|].
  rewrite refresh_some in Er. injection Er as <-. rewrite uff_new_view. destruct (extents g) eqn:Ex.
  - right. split; [|auto]. rewrite view_nil by assumption. reflexivity.
  - left. reflexivity.
Qed.
Print Assumptions C76_first_look.

(** [refresh]: the index is that of the file if the file has a set. *)
Theorem C76_refresh : forall w i n u, w_objs w i = Some (n, u) ->
  match w_files w n with
  | None => snd (act w (DoRefresh i)) = GaveBool false /\ exists u', w_objs (fst (act w (DoRefresh i))) i = Some (n, u') /\ refreshed u' = false /\ n_sets u' = n_sets u
  | Some g => snd (act w (DoRefresh i)) = GaveBool true /\ forall v, uff_new (Some g) = Ok v -> n_sets v <> 0 -> w_objs (fst (act w (DoRefresh i))) i = Some (n, v)
  end.
Proof.
  intros w i n u Hi. cbn [act]. unfold on_obj. rewrite Hi. destruct (w_files w n) as [g|].
  - rewrite refresh_some. unfold ask. cbn [fst snd w_objs]. split; [reflexivity|]. intros v Hv Hn. rewrite obj_same. rewrite uff_new_view in Hv. injection Hv as <-.
    unfold view in Hn. cbn [n_sets] in Hn. destruct (extents g); [cbn [length] in Hn; congruence|reflexivity].
  - cbn [refresh ask fst snd w_objs]. split; [reflexivity|]. rewrite obj_same. eexists. split; [reflexivity|]. split; reflexivity.
Qed.
Print Assumptions C76_refresh.

(* ------------------------------------------------------------------ *)
(** ** C07: a file without a set *)

(** Whatever the object reported before, it still reports after [refresh] on a
    file that has no complete set any more, although [refresh] says True. *)
Theorem C07_program_refuted : forall w i n u g v, w_objs w i = Some (n, u) -> refreshed u = true -> n_sets u <> 0 ->
  w_files w n = Some g -> uff_new (Some g) = Ok v -> n_sets v = 0 ->
  snd (act w (DoRefresh i)) = GaveBool true /\ snd (act (fst (act w (DoRefresh i))) (AskN i)) = GaveNat (n_sets u) /\
  snd (act (fst (act w (DoRefresh i))) (AskTypes i)) = GaveInts (set_types u).
Proof.
  intros w i n u g v Hi Hr Hn Hg Hv H0. rewrite uff_new_view in Hv. injection Hv as <-. unfold view in H0. cbn [n_sets] in H0.
  apply length_zero_iff_nil in H0.
  assert (W : exists u', n_sets u' = n_sets u /\ set_types u' = set_types u /\ refreshed u' = true /\
    act w (DoRefresh i) = ({| w_files := set_file (w_files w) n (Some g); w_objs := set_obj (w_objs w) i (n, u') |}, GaveBool true)).
  { cbn [act]. unfold on_obj. rewrite Hi, Hg, refresh_some, H0. unfold ask. eexists. split; [|split; [|split; [|reflexivity]]]; reflexivity. }
  destruct W as (u' & E1 & E2 & E3 & W). rewrite W. cbn [fst snd act]. split; [reflexivity|].
  unfold on_obj. cbn [w_objs w_files]. rewrite obj_same. unfold ask, get_n_sets, get_set_types, sync. rewrite E3. cbn [rbind snd].
  rewrite E1, E2. split; reflexivity.
Qed.
Print Assumptions C07_program_refuted.

(* ------------------------------------------------------------------ *)
(** ** C08: a file that appears later *)

(** For every content: reading all sets gives the empty list, and the next question
    tells the true number. *)
Theorem C08_program_refuted : forall w i n fn g ho, w_files w n = None ->
  let w1 := fst (act (fst (act w (DoOpen i (Some n) fn))) (Outside n (Some g))) in
  snd (act w (DoOpen i (Some n) fn)) = Done /\
  snd (act w1 (DoRead i SelAll ho)) = GaveSets (Many []) /\
  forall v, uff_new (Some g) = Ok v -> snd (act w1 (AskN i)) = GaveNat (n_sets v) /\ snd (act (fst (act w1 (DoRead i SelAll ho))) (AskN i)) = GaveNat (n_sets v).
Proof.
  intros w i n fn g ho Hn. cbn [act chosen]. rewrite Hn. cbn [uff_new refresh rbind fst snd w_files w_objs].
  split; [reflexivity|].
  unfold on_obj. cbn [fst snd w_files w_objs]. rewrite obj_same, set_same.
  unfold read_sets. cbn [n_sets uff0 seq map]. unfold sync. cbn [refreshed]. rewrite refresh_some. cbn [rbind read_all try_any].
  cbn [fst snd w_objs w_files]. split; [reflexivity|]. intros v Hv. rewrite uff_new_view in Hv. injection Hv as <-.
  unfold ask, get_n_sets. rewrite obj_same, set_same. unfold sync. cbn [refreshed]. rewrite refresh_some. cbn [rbind fst snd].
  destruct (extents g) eqn:E.
  - cbn. unfold view. rewrite E. split; reflexivity.
  - cbn [view n_sets refreshed rbind fst snd]. split; reflexivity.
Qed.
Print Assumptions C08_program_refuted.

(* ------------------------------------------------------------------ *)
(** ** Examples *)

(** The second call on the file fails at its second set: the object has the index
    of the content before that set.  Then the file is emptied from outside, and the
    object keeps its index. *)
Definition prog_mem : list op :=
  [DoOpen 0 (Some A) None; DoWrite 0 noclock [d164] (lit "add") true; DoWrite 0 noclock [d15; ex_bad15] (lit "add") true; AskTypes 0;
   Outside A (Some []); DoRefresh 0; AskTypes 0; DoRead 0 (SelOne 0) false; AskN 0; DoOpen 1 (Some A) None; AskN 1].
Example C76_example : map snd (snd (program empty_world prog_mem)) =
    [Done; Done; Raised (PyException "The required key 'x' not present when writing data-set #15"); GaveInts [164; 15]%Z;
     Done; GaveBool true; GaveInts [164; 15]%Z; Raised (PyException "Error when reading data-set(s)."); GaveNat 2; Done; GaveNat 0].
Proof. vm_compute. reflexivity. Qed.
(** The hypotheses of the theorems are met in the course of it. *)
Example C76_example_held : exists u, w_objs (fst (program empty_world (firstn 5 prog_mem))) 0 = Some (A, u) /\ refreshed u = true /\ n_sets u <> 0 /\
  w_files (fst (program empty_world (firstn 5 prog_mem))) A = Some [] /\ (exists v, uff_new (Some []) = Ok v /\ n_sets v = 0).
Proof.
  exists (match w_objs (fst (program empty_world (firstn 5 prog_mem))) 0 with Some (_, u) => u | None => uff0 end).
  split; [vm_compute; reflexivity|]. split; [vm_compute; reflexivity|]. split; [vm_compute; discriminate|].
  split; [vm_compute; reflexivity|]. eexists. split; reflexivity.
Qed.
Example C76_example_look : exists u, w_objs (fst (program empty_world [DoOpen 0 (Some A) None; Outside A (Some ex_old)])) 0 = Some (A, u) /\
  refreshed u = false /\ w_files (fst (program empty_world [DoOpen 0 (Some A) None; Outside A (Some ex_old)])) A = Some ex_old.
Proof. eexists. split; [vm_compute; reflexivity|]. split; vm_compute; reflexivity. Qed.
