(** Property C78: files that cannot be opened. *)
From Coq Require Import String List NArith ZArith Bool Lia.
Import ListNotations.
From Verif Require Import PyBase PyNum PyVal Utf8 Tools DsHeaders DsGroups Ds58 Uff Facts Scan Container Append ContainerThms PropContainer World PropWorld.
From Verif Require Import RtHeads RtNodes PropHeads PropNodes PropMemory Access.
From Coq Require Import Lia.
Open Scope string_scope.
Open Scope list_scope.
Open Scope nat_scope.

(** ** What is claimed *)

(** The file a call reads, and the file it writes. *)
Definition reads_file (w : world) (a : op) : option str :=
  match a with
  | DoOpen _ (Some n) _ | DoOpen _ None (Some n) => Some n
  | DoRefresh i | AskN i | AskTypes i | AskFormats i | DoRead i _ _ | DoWrite i _ _ _ _ => option_map fst (w_objs w i)
  | DoFix src _ => Some src
  | _ => None
  end.
Definition writes_file (w : world) (a : op) : option str :=
  match a with
  | DoWrite i _ _ _ _ => option_map fst (w_objs w i)
  | DoFix src tgt => Some (fix_target src tgt)
  | _ => None
  end.
(** Nothing has changed. *)
Definition same_world (w w' : world) : Prop := (forall g, w_files w' g = w_files w g) /\ (forall j, w_objs w' j = w_objs w j).
(** Nothing has changed but the mark that object [i] is up to date. *)
Definition marked (i : nat) (w w' : world) : Prop :=
  (forall g, w_files w' g = w_files w g) /\ (forall j, j <> i -> w_objs w' j = w_objs w j) /\
  exists n u u', w_objs w i = Some (n, u) /\ w_objs w' i = Some (n, u') /\ refreshed u' = false /\
    block_ind u' = block_ind u /\ n_sets u' = n_sets u /\ set_types u' = set_types u /\ set_formats u' = set_formats u.
(** Questions that are answered from the index. *)
Definition question (i : nat) (a : op) : Prop := a = AskN i \/ a = AskTypes i \/ a = AskFormats i.

(** ** With the rights a call needs *)

Lemma refresh_full : forall f u, exists u' b, refresh f u = Ok (u', b) /\ refresh_in true f u = (u', Ok b).
Proof.
  intros [d|] u; [|eexists _, _; split; reflexivity]. unfold refresh_in. rewrite refresh_some. eexists _, _. split; reflexivity.
Qed.
Lemma sync_full : forall f u, exists u', sync f u = Ok u' /\ sync_in true f u = (u', None).
Proof.
  intros f u. unfold sync, sync_in. destruct (refreshed u); [exists u; split; reflexivity|]. destruct (refresh_full f u) as (u' & b & -> & ->). exists u'. split; reflexivity.
Qed.
Lemma write_list_full : forall c fd ds m f u, write_list_in true true c m fd f u ds = write_list c m fd f u ds.
Proof.
  intros c fd ds. induction ds as [|d ds IH]; intros m f u; [reflexivity|]. cbn [write_list_in write_list]. unfold write_set_in. cbv zeta.
  destruct (w_exc (write_set c m fd f u d)) as [e|] eqn:E; rewrite E; [reflexivity|]. apply IH.
Qed.
Lemma write_full : forall c f u ds mode fd, write_sets_in true true c f u ds mode fd = write_sets c f u ds mode fd.
Proof. intros c f u ds mode fd. unfold write_sets_in, write_sets. destruct ds as [|d ds]; [reflexivity|]. destruct (parse_mode mode); [apply write_list_full|reflexivity]. Qed.
Lemma on_ext : forall w i k k', (forall n u, w_objs w i = Some (n, u) -> k n (w_files w n) u = k' n (w_files w n) u) -> on_obj w i k = on_obj w i k'.
Proof. intros w i k k' H. unfold on_obj. destruct (w_objs w i) as [[n u]|]; [|reflexivity]. rewrite (H n u eq_refl). reflexivity. Qed.
Lemma read_all_refreshed : forall f l u ho u' ds, refreshed u = true -> read_all f u l ho = Ok (u', ds) -> u' = u.
Proof.
  intros f l. induction l as [|n l IH]; intros u ho u' ds Hr H; cbn [read_all] in H; [injection H; auto|].
  destruct (read_set f u n ho) as [[u1 d]|] eqn:E; [|discriminate]. cbn [rbind] in H.
  assert (u1 = u). { unfold read_set in E. destruct f as [data|]; [|discriminate]. unfold sync in E. rewrite Hr in E. cbn [rbind] in E. destruct (_ || _); [discriminate|].
    destruct (of_option IndexError (nth_error (block_ind u) _)); [|discriminate]. cbn [rbind] in E. destruct (of_option IndexError (nth_error (set_types u) _)); [|discriminate]. cbn [rbind] in E.
    destruct (extract_set _ _ _); [|discriminate]. injection E; auto. }
  subst u1. destruct (read_all f u l ho) as [[u2 ds2]|] eqn:E2; [|discriminate]. cbn [rbind] in H. injection H as <- _. eapply IH; eassumption.
Qed.
Theorem C78_allowed : forall p w a, (forall n, reads_file w a = Some n -> can_read p n = true) -> (forall n, writes_file w a = Some n -> can_write p n = true) -> act_in p w a = act w a.
Proof.
  intros p w a Hr Hw. destruct a as [i a b|i|i|i|i|i|i|i|i s ho|i c ds mode fd|src tgt|n b]; try reflexivity.
  - cbn [act_in act reads_file] in *. destruct a as [n|]; [|destruct b as [n|]; [|reflexivity]]; cbn [chosen]; rewrite (Hr n eq_refl); unfold uff_new;
      destruct (refresh_full (w_files w n) uff0) as (u' & b' & -> & ->); reflexivity.
  - cbn [act_in act reads_file] in *. apply on_ext. intros n u E. rewrite E in Hr. rewrite (Hr n eq_refl). unfold ask.
    destruct (refresh_full (w_files w n) u) as (u' & b' & -> & ->). reflexivity.
  - cbn [act_in act reads_file] in *. apply on_ext. intros n u E. rewrite E in Hr. rewrite (Hr n eq_refl). unfold ask, ask_in, get_n_sets. destruct (sync_full (w_files w n) u) as (u' & -> & ->). reflexivity.
  - cbn [act_in act reads_file] in *. apply on_ext. intros n u E. rewrite E in Hr. rewrite (Hr n eq_refl). unfold ask, ask_in, get_set_types. destruct (sync_full (w_files w n) u) as (u' & -> & ->). reflexivity.
  - cbn [act_in act reads_file] in *. apply on_ext. intros n u E. rewrite E in Hr. rewrite (Hr n eq_refl). unfold ask, ask_in, get_set_formats. destruct (sync_full (w_files w n) u) as (u' & -> & ->). reflexivity.
  - cbn [act_in act reads_file] in *. apply on_ext. intros n u E. rewrite E in Hr. rewrite (Hr n eq_refl). unfold read_sets_in, read_sets, after_read. destruct (w_files w n) as [data|]; [|reflexivity].
    destruct (sync_full (Some data) u) as (u' & -> & ->). cbn [rbind]. destruct (try_any _ _) as [[u2 ds]|e]; reflexivity.
  - cbn [act_in act reads_file writes_file] in *. apply on_ext. intros n u E. rewrite E in Hr, Hw. rewrite (Hr n eq_refl), (Hw n eq_refl), write_full. reflexivity.
  - cbn [reads_file writes_file] in *. cbn [act_in]. rewrite (Hr src eq_refl), (Hw _ eq_refl). cbn [act]. destruct (w_files w src); reflexivity.
Qed.
Print Assumptions C78_allowed.

(** ** A file that cannot be written *)

Lemma ask_in_file : forall r g f u, fst (fst (ask_in r g f u)) = f.
Proof. intros r g f u. unfold ask_in. destruct (sync_in r f u) as [u' [e|]]; reflexivity. Qed.
Lemma write_list_denied : forall r c m fd f u ds, ds <> [] -> write_list_in r false c m fd f u ds = (f, u, Some no_write).
Proof. intros r c m fd f u [|d ds] H; [contradiction H; reflexivity|reflexivity]. Qed.
Lemma write_denied : forall r c f u ds mode fd, exists e, write_sets_in r false c f u ds mode fd = (f, u, Some e).
Proof. intros r c f u ds mode fd. unfold write_sets_in. destruct ds as [|d ds]; [eauto|]. destruct (parse_mode mode); [|eauto]. rewrite write_list_denied by discriminate. eauto. Qed.
Lemma act_protected : forall p w a g, can_write p g = false -> (forall b, a <> Outside g b) -> w_files (fst (act_in p w a)) g = w_files w g.
Proof.
  intros p w a g Hg Ho. destruct a as [i a b|i|i|i|i|i|i|i|i s ho|i c ds mode fd|src tgt|n b]; cbn [act_in];
    try (apply on_obj_keeps; intros n u _; first [apply ask_in_file|reflexivity]).
  - destruct (chosen a b) as [n|]; [|reflexivity]. destruct (refresh_in _ _ _) as [u [x|e]]; reflexivity.
  - apply on_obj_keeps. intros n u _. destruct (refresh_in _ _ _) as [u' [x|e]]; reflexivity.
  - apply on_obj_keeps. intros n u _. destruct (read_sets_in _ _ _ _ _) as [u' [x|e]]; reflexivity.
  - unfold on_obj. destruct (w_objs w i) as [[n u]|]; [|reflexivity]. destruct (leqb g n) eqn:E.
    + apply leqb_eq in E. subst n. rewrite Hg. destruct (write_denied (can_read p g) c (w_files w g) u ds mode fd) as (e & ->). cbn [fst w_files]. apply set_id.
    + destruct (write_sets_in _ _ _ _ _ _ _ _) as [[f' u'] e]. cbn [fst w_files]. apply set_other. intros ->. rewrite leqb_refl in E. discriminate.
  - destruct (w_files w src) as [d|] eqn:E; [|reflexivity]. destruct (can_read p src); [|reflexivity]. destruct (can_write p (fix_target src tgt)) eqn:Ew; [|reflexivity].
    apply C65_only_target. cbn [target]. intro Q. injection Q as Q. rewrite Q in Ew. congruence.
  - cbn [act fst w_files]. apply set_other. intros ->. apply (Ho b). reflexivity.
Qed.
(** In a program in which a file may never be written, only others change it. *)
Theorem C78_protected : forall g h w, Forall (fun pa => can_write (fst pa) g = false /\ forall b, snd pa <> Outside g b) h ->
  w_files (fst (program_in w h)) g = w_files w g.
Proof.
  intros g h. induction h as [|[p a] h IH]; intros w F; [reflexivity|]. inversion F as [|? ? [F1 F2] F3]; subst. cbn [fst snd] in *. cbn [program_in].
  assert (A := act_protected p w a g F1 F2). destruct (act_in p w a) as [w1 o]. specialize (IH w1 F3). destruct (program_in w1 h) as [w2 t]. cbn [fst] in *. congruence.
Qed.
Print Assumptions C78_protected.
Lemma on_unchanged : forall w i n u o k, w_objs w i = Some (n, u) -> k n (w_files w n) u = (w_files w n, u, o) -> snd (on_obj w i k) = o /\ same_world w (fst (on_obj w i k)).
Proof.
  intros w i n u o k E Hk. unfold on_obj. rewrite E, Hk. cbn [fst snd]. split; [reflexivity|]. split; cbn [w_files w_objs]; [intro g; apply set_id|].
  intro j. unfold set_obj. destruct (Nat.eqb_spec j i) as [->|]; [symmetry; exact E|reflexivity].
Qed.
(** The calls that would write it raise, and nothing at all has changed. *)
Theorem C78_no_write : forall p w i n u c ds mode fd, w_objs w i = Some (n, u) -> can_write p n = false -> ds <> [] -> lower mode = lit "add" \/ lower mode = lit "overwrite" ->
  snd (act_in p w (DoWrite i c ds mode fd)) = Raised (PyException "Cannot access the file to write to.") /\ same_world w (fst (act_in p w (DoWrite i c ds mode fd))).
Proof.
  intros p w i n u c ds mode fd E Hw N M. cbn [act_in]. eapply on_unchanged; [exact E|]. rewrite Hw. unfold write_sets_in. destruct ds as [|d ds]; [contradiction N; reflexivity|].
  assert (P : exists m, parse_mode mode = Ok m).
  { unfold parse_mode. destruct M as [-> | ->]; [|eexists; reflexivity]. cbn. eauto. }
  destruct P as (m & ->). rewrite write_list_denied by discriminate. reflexivity.
Qed.
Print Assumptions C78_no_write.
Theorem C78_no_fix : forall p w src tgt d, w_files w src = Some d -> can_read p src = false \/ can_write p (fix_target src tgt) = false ->
  exists m, act_in p w (DoFix src tgt) = (w, Raised (PyException m)).
Proof.
  intros p w src tgt d E H. cbn [act_in]. rewrite E. destruct (can_read p src); [|eexists; reflexivity]. destruct (can_write p (fix_target src tgt)); [|eexists; reflexivity].
  destruct H; discriminate.
Qed.
Print Assumptions C78_no_fix.

(** ** A file that cannot be read *)

Lemma on_marked : forall w i n u o k, w_objs w i = Some (n, u) -> k n (w_files w n) u = (w_files w n, stale u, o) -> snd (on_obj w i k) = o /\ marked i w (fst (on_obj w i k)).
Proof.
  intros w i n u o k E Hk. unfold on_obj. rewrite E, Hk. cbn [fst snd]. split; [reflexivity|]. split; cbn [w_files w_objs]; [intro g; apply set_id|].
  split; [intros j Hj; apply obj_other; exact Hj|]. exists n, u, (stale u). split; [exact E|]. split; [apply obj_same|]. repeat split; reflexivity.
Qed.
Theorem C78_no_open : forall p w i a b n d, a = Some n \/ a = None /\ b = Some n -> w_files w n = Some d -> can_read p n = false ->
  act_in p w (DoOpen i a b) = (w, Raised (PyException "Cannot access the file")).
Proof. intros p w i a b n d H E Hr. cbn [act_in]. destruct H as [-> | [-> ->]]; cbn [chosen]; rewrite E, Hr; reflexivity. Qed.
Print Assumptions C78_no_open.
(** refresh raises and the object is marked; its index stays. *)
Theorem C78_no_refresh : forall p w i n u d, w_objs w i = Some (n, u) -> w_files w n = Some d -> can_read p n = false ->
  snd (act_in p w (DoRefresh i)) = Raised (PyException "Cannot access the file") /\ marked i w (fst (act_in p w (DoRefresh i))).
Proof. intros p w i n u d E Ed Hr. cbn [act_in]. eapply on_marked; [exact E|]. rewrite Hr, Ed. reflexivity. Qed.
Print Assumptions C78_no_refresh.
(** An up-to-date object answers as if the file could be read; another one raises. *)
Theorem C78_questions : forall p w i n u d a, w_objs w i = Some (n, u) -> w_files w n = Some d -> can_read p n = false -> question i a ->
  (refreshed u = true -> act_in p w a = act w a /\ exists o, snd (act w a) = o /\ forall e, o <> Raised e) /\
  (refreshed u = false -> snd (act_in p w a) = Raised (PyException "Cannot access the file") /\ same_world w (fst (act_in p w a))).
Proof.
  intros p w i n u d a E Ed Hr Q. split; intro Hf.
  - split.
    + destruct Q as [-> | [-> | ->]]; cbn [act_in act]; apply on_ext; intros n' u' E'; rewrite E in E'; injection E' as <- <-; unfold ask_in, ask, sync_in, get_n_sets, get_set_types, get_set_formats, sync; rewrite Hf; reflexivity.
    + eexists. split; [reflexivity|]. intro e. destruct Q as [-> | [-> | ->]]; cbn [act]; unfold on_obj; rewrite E; unfold ask, get_n_sets, get_set_types, get_set_formats, sync; rewrite Hf; cbn [rbind snd]; discriminate.
  - assert (S : stale u = u) by (destruct u as [b f k t fm]; cbn [refreshed] in Hf; subst f; reflexivity).
    destruct Q as [-> | [-> | ->]]; cbn [act_in]; (eapply on_unchanged; [exact E|]; rewrite Hr, Ed; unfold ask_in, sync_in; rewrite Hf; cbn [refresh_in]; rewrite S; reflexivity).
Qed.
Print Assumptions C78_questions.
(** Reading raises and changes nothing, unless no set was asked for. *)
Theorem C78_no_reading : forall p w i n u d s ho, w_objs w i = Some (n, u) -> w_files w n = Some d -> can_read p n = false ->
  (s = SelAll -> n_sets u <> 0) -> s <> SelList [] ->
  (exists m, snd (act_in p w (DoRead i s ho)) = Raised (PyException m)) /\ same_world w (fst (act_in p w (DoRead i s ho))).
Proof.
  intros p w i n u d s ho E Ed Hr Ha Hs.
  assert (X : exists m, (let '(u', r) := read_sets_in false (Some d) u s ho in (Some d, u', match r with Ok r => GaveSets r | Err e => Raised e end)) = (Some d, u, Raised (PyException m))).
  { unfold read_sets_in, sync_in. destruct (refreshed u) eqn:Hf.
    - destruct s as [|z|[|z l]]; try (eexists; reflexivity); [|contradiction Hs; reflexivity]. destruct (n_sets u) as [|k]; [contradiction (Ha eq_refl); reflexivity|]. cbn [seq map]. eexists. reflexivity.
    - assert (S : stale u = u) by (destruct u as [b f k t fm]; cbn [refreshed] in Hf; subst f; reflexivity). cbn [refresh_in]. rewrite S. eexists. reflexivity. }
  destruct X as (m & X). cbn [act_in].
  assert (Y : exists o, snd (on_obj w i (fun n f u => match read_sets_in (can_read p n) f u s ho with (u', Ok r) => (f, u', GaveSets r) | (u', Err e) => (f, u', Raised e) end)) = o /\
    same_world w (fst (on_obj w i (fun n f u => match read_sets_in (can_read p n) f u s ho with (u', Ok r) => (f, u', GaveSets r) | (u', Err e) => (f, u', Raised e) end))) /\ o = Raised (PyException m)).
  { eexists. rewrite <- and_assoc. split; [eapply on_unchanged; [exact E|]|reflexivity]. rewrite Hr, Ed. destruct (read_sets_in false (Some d) u s ho) as [u' [r|e]]; exact X. }
  destruct Y as (o & Y1 & Y2 & ->). split; [exists m; exact Y1|exact Y2].
Qed.
Print Assumptions C78_no_reading.

(** ** Writing to a file that cannot be read *)

(** The first set is stored in full, then the call raises, and the other sets are
    not written. *)
Theorem C78_stored_refuted : forall p w i n u c d ds mode fd, w_objs w i = Some (n, u) -> can_write p n = true -> can_read p n = false ->
  snd (write_sets c (w_files w n) u [d] mode fd) = None ->
  snd (act_in p w (DoWrite i c (d :: ds) mode fd)) = Raised (PyException "Cannot access the file") /\
  w_files (fst (act_in p w (DoWrite i c (d :: ds) mode fd))) n = fst (fst (write_sets c (w_files w n) u [d] mode fd)) /\
  w_files (fst (act_in p w (DoWrite i c (d :: ds) mode fd))) n <> None.
Proof.
  intros p w i n u c d ds mode fd E Hw Hr Hs. cbn [act_in]. unfold on_obj. rewrite E, Hw, Hr. unfold write_sets in *. unfold write_sets_in.
  destruct (parse_mode mode) as [m|] eqn:Em; [|discriminate Hs]. cbn [write_list write_list_in] in *. unfold write_set_in. cbv zeta in *.
  assert (W : w_exc (write_set c m fd (w_files w n) u d) = None -> w_file (write_set c m fd (w_files w n) u d) <> None).
  { intros _. unfold write_set. destruct (dget d (KS "type")) as [ty|]; [|discriminate]. destruct (match dget d (KS "data") with Some _ => _ | None => _ end) as [d1|]; [|discriminate].
    cbv zeta. destruct (run_items _ _) as [b [e|]]; [discriminate|]. destruct (refresh (Some b) u) as [[u' x]|]; discriminate. }
  destruct (w_exc (write_set c m fd (w_files w n) u d)) as [e|] eqn:Ee; [discriminate Hs|]. specialize (W eq_refl). cbn [w_exc w_file w_uff fst snd w_files].
  rewrite set_same. split; [reflexivity|]. split; [reflexivity|exact W].
Qed.
Print Assumptions C78_stored_refuted.

(** A file without write access is read; one without read access is written: each
    attempt raises, and the file holds the set twice in the end. *)
Definition all_perms : perms := {| can_read := fun _ => true; can_write := fun _ => true |}.
Definition read_only : perms := {| can_read := fun _ => true; can_write := fun _ => false |}.
Definition write_only : perms := {| can_read := fun _ => false; can_write := fun _ => true |}.
Definition prog_access : list (perms * op) :=
  [(all_perms, DoOpen 0 (Some A) None); (all_perms, DoWrite 0 noclock [d164] (lit "add") true);
   (read_only, DoWrite 0 noclock [d15] (lit "add") true); (read_only, AskTypes 0); (read_only, DoFix A None);
   (write_only, AskTypes 0); (write_only, DoOpen 1 (Some A) None); (write_only, DoRead 0 SelAll true);
   (write_only, DoWrite 0 noclock [d15; d164] (lit "add") true); (write_only, DoWrite 0 noclock [d15; d164] (lit "add") true); (write_only, AskTypes 0); (write_only, AskStatus 0);
   (all_perms, AskTypes 0)].
Example C78_example : map snd (snd (program_in empty_world prog_access)) =
  [Done; Done; Raised (PyException "Cannot access the file to write to."); GaveInts [164]%Z; Raised (PyException "Error fixing UFF file");
   GaveInts [164]%Z; Raised (PyException "Cannot access the file"); Raised (PyException "Error when reading data-set(s).");
   Raised (PyException "Cannot access the file"); Raised (PyException "Cannot access the file"); Raised (PyException "Cannot access the file"); GaveBool false;
   GaveInts [164; 15; 15]%Z].
Proof. vm_compute. reflexivity. Qed.
Example C78_example_protected : Forall (fun pa => can_write (fst pa) A = false /\ forall b, snd pa <> Outside A b) (map (fun pa => (read_only, snd pa)) prog_access).
Proof. repeat (constructor; [split; [reflexivity|discriminate]|]). constructor. Qed.
