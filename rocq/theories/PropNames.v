(** Property C77: the file of an object, its name and its existence. *)
From Coq Require Import String List NArith ZArith Bool Lia.
Import ListNotations.
From Verif Require Import PyBase PyNum PyVal Utf8 Tools DsHeaders DsGroups Ds58 Uff Facts Scan Container Append ContainerThms PropContainer World PropWorld.
From Verif Require Import RtHeads RtNodes PropHeads PropNodes PropMemory.
From Coq Require Import Lia.
Open Scope string_scope.
Open Scope list_scope.
Open Scope nat_scope.

(** ** What is claimed *)

(** The name that the last construction of object [i] chose: the first argument,
    or else the second. *)
Fixpoint named (i : nat) (now : option str) (t : list (op * outcome)) : option str :=
  match t with
  | [] => now
  | (DoOpen j (Some n) _, _) :: r => named i (if Nat.eqb j i then Some n else now) r
  | (DoOpen j None (Some n), _) :: r => named i (if Nat.eqb j i then Some n else now) r
  | _ :: r => named i now r
  end.
(** A writing call that opens its file: there is something to write, and the mode
    is one of the two, in any case of letters. *)
Definition opens (ds : list dict) (mode : str) : Prop := ds <> [] /\ (lower mode = lit "overwrite" \/ lower mode = lit "add").
(** The calls of a run that make the file [g], whether they succeed or not. *)
Definition makes (g : str) (before : list (op * outcome)) (e : op * outcome) : Prop :=
  match e with
  | (DoWrite i _ ds mode _, _) => named i None before = Some g /\ opens ds mode
  | (DoFix src tgt, Done) => fix_target src tgt = g
  | (Outside n (Some _), _) => n = g
  | _ => False
  end.
(** After the calls [t] the file exists: it was there or was made, and it was not
    deleted from outside since. *)
Definition there (g : str) (at_start : bool) (t : list (op * outcome)) : Prop :=
  (at_start = true /\ ~ In (Outside g None) (map fst t)) \/
  (exists t1 e t2, t = t1 ++ e :: t2 /\ makes g t1 e /\ ~ In (Outside g None) (map fst t2)).

(** ** Proof *)

Lemma named_app : forall i t now t', named i now (t ++ t') = named i (named i now t) t'.
Proof.
  intros i t. induction t as [|[a o] t IH]; intros now t'; [reflexivity|]. cbn [app named]. destruct a as [j [n|] [m|]| | | | | | | | | | |]; apply IH.
Qed.
Definition names_of (w : world) (i : nat) : option str := match w_objs w i with Some (n, _) => Some n | None => None end.
Lemma new_ok : forall f, exists u, uff_new f = Ok u.
Proof. intros [f|]; [eexists; apply uff_new_view|eexists; reflexivity]. Qed.
Lemma on_names : forall w i k j, names_of (fst (on_obj w i k)) j = names_of w j.
Proof.
  intros w i k j. unfold on_obj. destruct (w_objs w i) as [[n u]|] eqn:E; [|reflexivity]. destruct (k n (w_files w n) u) as [[f' u'] o]. cbn [fst]. unfold names_of. cbn [w_objs].
  unfold set_obj. destruct (Nat.eqb_spec j i) as [->|]; [rewrite E; reflexivity|reflexivity].
Qed.
Lemma act_names : forall w a i, names_of (fst (act w a)) i = named i (names_of w i) [(a, snd (act w a))].
Proof.
  intros w a i. destruct a as [j a b|j|j|j|j|j|j|j|j s ho|j c ds mode fd|src tgt|n b]; cbn [named]; try (cbn [act]; apply on_names).
  - cbn [act]. destruct a as [n|]; [|destruct b as [n|]; [|reflexivity]]; cbn [chosen]; destruct (new_ok (w_files w n)) as [u E]; rewrite E; cbn [fst]; unfold names_of; cbn [w_objs];
      unfold set_obj; rewrite (Nat.eqb_sym i j); destruct (Nat.eqb j i); reflexivity.
  - cbn [act]. destruct (w_files w src) as [d|]; [|reflexivity]. destruct (fix_58b d); reflexivity.
  - reflexivity.
Qed.
Lemma program_names : forall h w w' t, program w h = (w', t) -> forall i, names_of w' i = named i (names_of w i) t.
Proof.
  induction h as [|a h IH]; intros w w' t E i; cbn [program] in E; [injection E as <- <-; reflexivity|].
  assert (A := act_names w a i). destruct (act w a) as [w1 o]. cbn [fst snd] in A. destruct (program w1 h) as [w2 t2] eqn:E2. injection E as <- <-.
  rewrite (IH _ _ _ E2 i), A. change ((a, o) :: t2) with ([(a, o)] ++ t2). rewrite named_app. reflexivity.
Qed.
Theorem C77_name : forall w0 h w t i n, (forall j, w_objs w0 j = None) -> program w0 h = (w, t) -> named i None t = Some n ->
  snd (act w (AskName i)) = GaveStr n.
Proof.
  intros w0 h w t i n H0 E Hn. assert (A := program_names _ _ _ _ E i). unfold names_of in A at 2. rewrite H0, Hn in A. unfold names_of in A.
  cbn [act]. unfold on_obj. destruct (w_objs w i) as [[m u]|]; [|discriminate]. injection A as ->. reflexivity.
Qed.
Print Assumptions C77_name.
(** Without a name no object is made. *)
Theorem C77_nameless : forall w i, act w (DoOpen i None None) = (w, Raised AttributeError).
Proof. reflexivity. Qed.
Print Assumptions C77_nameless.

(** One call. *)
Definition exists_in (w : world) (g : str) : bool := match w_files w g with Some _ => true | None => false end.
Lemma leqb_dec : forall a b, leqb a b = true \/ leqb a b = false.
Proof. intros a b. destruct (leqb a b); auto. Qed.
Lemma set_self : forall f n g, set_file f n (f n) g = f g.
Proof. intros f n g. unfold set_file. destruct (leqb g n) eqn:E; [|reflexivity]. apply leqb_eq in E. subst. reflexivity. Qed.
Lemma on_same : forall w i k g, (forall n f u, fst (fst (k n f u)) = f) -> exists_in (fst (on_obj w i k)) g = exists_in w g.
Proof.
  intros w i k g Hk. unfold on_obj, exists_in. destruct (w_objs w i) as [[n u]|]; [|reflexivity]. specialize (Hk n (w_files w n) u). destruct (k n (w_files w n) u) as [[f' u'] o].
  cbn [fst] in *. subst f'. cbn [w_files]. rewrite set_self. reflexivity.
Qed.
Lemma ask_same : forall A (r : result (uff * A)) give f u, fst (fst (ask r give f u)) = f.
Proof. intros A [[u' a]|e] give f u; reflexivity. Qed.
Lemma write_list_some : forall c fd ds m f u, ds <> [] -> fst (fst (write_list c m fd f u ds)) <> None.
Proof.
  assert (S : forall c m fd f u d, w_file (write_set c m fd f u d) <> None).
  { intros c m fd f u d. unfold write_set. destruct (dget d (KS "type")) as [ty|]; [|discriminate]. destruct (match dget d (KS "data") with Some _ => _ | None => _ end) as [d1|]; [|discriminate].
    cbv zeta. destruct (run_items _ _) as [b [e|]]; [discriminate|]. destruct (refresh (Some b) u) as [[u' x]|]; discriminate. }
  intros c fd ds. induction ds as [|d ds IH]; intros m f u N; [contradiction N; reflexivity|]. cbn [write_list]. cbv zeta.
  destruct (w_exc (write_set c m fd f u d)); [apply S|]. destruct ds as [|d' ds]; [apply S|]. apply IH. discriminate.
Qed.
Lemma write_exists : forall c f u ds mode fd, opens ds mode -> fst (fst (write_sets c f u ds mode fd)) <> None.
Proof.
  intros c f u ds mode fd [N M]. unfold write_sets. destruct ds as [|d ds]; [contradiction N; reflexivity|].
  assert (P : exists m, parse_mode mode = Ok m).
  { unfold parse_mode. destruct (leqb (lower mode) (lit "overwrite")) eqn:E1; [eauto|]. destruct (leqb (lower mode) (lit "add")) eqn:E2; [eauto|].
    destruct M as [M|M]; rewrite M in *; [discriminate E1|discriminate E2]. }
  destruct P as [m ->]. apply write_list_some. discriminate.
Qed.
Lemma write_same : forall c f u ds mode fd, ~ opens ds mode -> fst (fst (write_sets c f u ds mode fd)) = f.
Proof.
  intros c f u ds mode fd N. unfold write_sets. destruct ds as [|d ds]; [reflexivity|]. destruct (parse_mode mode) as [m|] eqn:E; [|reflexivity]. exfalso. apply N. split; [discriminate|].
  unfold parse_mode in E. destruct (leqb (lower mode) (lit "overwrite")) eqn:E1; [left; apply leqb_eq; exact E1|]. destruct (leqb (lower mode) (lit "add")) eqn:E2; [right; apply leqb_eq; exact E2|discriminate].
Qed.
Lemma opens_dec : forall ds mode, {opens ds mode} + {~ opens ds mode}.
Proof.
  intros ds mode. destruct ds as [|d ds]; [right; intros [N _]; apply N; reflexivity|].
  destruct (leqb (lower mode) (lit "overwrite")) eqn:E1; [left; split; [discriminate|left; apply leqb_eq; exact E1]|].
  destruct (leqb (lower mode) (lit "add")) eqn:E2; [left; split; [discriminate|right; apply leqb_eq; exact E2]|].
  right. intros [_ [M|M]]; rewrite M in *; [discriminate E1|discriminate E2].
Qed.
Definition makes_now (g : str) (nm : nat -> option str) (e : op * outcome) : Prop :=
  match e with
  | (DoWrite i _ ds mode _, _) => nm i = Some g /\ opens ds mode
  | (DoFix src tgt, Done) => fix_target src tgt = g
  | (Outside n (Some _), _) => n = g
  | _ => False
  end.
Lemma act_exists : forall w a g, let e := (a, snd (act w a)) in
  exists_in (fst (act w a)) g = true <-> (makes_now g (names_of w) e \/ (a <> Outside g None /\ exists_in w g = true)).
Proof.
  intros w a g. cbv zeta.
  assert (K : forall b a', b = exists_in w g -> a' <> Outside g None -> ~ makes_now g (names_of w) (a', snd (act w a')) ->
    (b = true <-> (makes_now g (names_of w) (a', snd (act w a')) \/ (a' <> Outside g None /\ exists_in w g = true)))).
  { intros b a' -> Na Nm. split; [intro H; right; split; [exact Na|exact H]|]. intros [H|[_ H]]; [contradiction|exact H]. }
  destruct a as [j a b|j|j|j|j|j|j|j|j s ho|j c ds mode fd|src tgt|n b].
  - apply K; [|discriminate|intros []]. cbn [act]. destruct (chosen a b) as [n|]; [|reflexivity]. destruct (uff_new (w_files w n)); reflexivity.
  - apply K; [|discriminate|intros []]. cbn [act]. apply on_same. intros. apply ask_same.
  - apply K; [|discriminate|intros []]. cbn [act]. apply on_same. intros. apply ask_same.
  - apply K; [|discriminate|intros []]. cbn [act]. apply on_same. intros. apply ask_same.
  - apply K; [|discriminate|intros []]. cbn [act]. apply on_same. intros. apply ask_same.
  - apply K; [|discriminate|intros []]. cbn [act]. apply on_same. reflexivity.
  - apply K; [|discriminate|intros []]. cbn [act]. apply on_same. reflexivity.
  - apply K; [|discriminate|intros []]. cbn [act]. apply on_same. reflexivity.
  - apply K; [|discriminate|intros []]. cbn [act]. apply on_same. intros n f u. destruct (read_sets f u s ho) as [[u' r]|e]; reflexivity.
  - cbn [makes_now]. cbn [act]. unfold on_obj, exists_in, names_of. destruct (w_objs w j) as [[n u]|] eqn:Ej.
    2:{ cbn [fst]. split; [intro H; right; split; [discriminate|exact H]|]. intros [[H _]|[_ H]]; [discriminate|exact H]. }
    assert (X := write_exists c (w_files w n) u ds mode fd). assert (Y := write_same c (w_files w n) u ds mode fd). destruct (write_sets c (w_files w n) u ds mode fd) as [[f' u'] x].
    cbn [fst snd w_files] in *. unfold set_file. destruct (leqb g n) eqn:Eg.
    + apply leqb_eq in Eg. subst n. destruct (opens_dec ds mode) as [O|O].
      * specialize (X O). destruct f' as [f'|]; [|contradiction X; reflexivity]. split; [intros _; left; split; [reflexivity|exact O]|reflexivity].
      * rewrite (Y O). split; [intro H; right; split; [discriminate|exact H]|]. intros [[_ H]|[_ H]]; [contradiction|exact H].
    + split; [intro H; right; split; [discriminate|exact H]|]. intros [[H _]|[_ H]]; [|exact H]. injection H as ->. assert (R : leqb g g = true) by (apply leqb_eq; reflexivity).
      rewrite R in Eg. discriminate.
  - cbn [makes_now]. cbn [act]. unfold exists_in. destruct (w_files w src) as [d|].
    2:{ cbn [fst snd]. split; [intro H; right; split; [discriminate|exact H]|]. intros [[]|[_ H]]; exact H. }
    destruct (fix_58b d) as [out|e]; cbn [fst snd w_files].
    2:{ split; [intro H; right; split; [discriminate|exact H]|]. intros [[]|[_ H]]; exact H. }
    unfold set_file. destruct (leqb g (fix_target src tgt)) eqn:Eg.
    + apply leqb_eq in Eg. split; [intros _; left; symmetry; exact Eg|reflexivity].
    + split; [intro H; right; split; [discriminate|exact H]|]. intros [H|[_ H]]; [|exact H]. rewrite H in Eg. assert (R : leqb g g = true) by (apply leqb_eq; reflexivity). rewrite R in Eg. discriminate.
  - cbn [makes_now act fst snd]. unfold exists_in. cbn [w_files]. unfold set_file. destruct (leqb g n) eqn:Eg.
    + apply leqb_eq in Eg. subst n. destruct b as [b|]; [split; [intros _; left; reflexivity|reflexivity]|]. split; [discriminate|]. intros [[]|[H _]]. contradiction H. reflexivity.
    + assert (Ng : n <> g) by (intro Q; subst n; assert (R : leqb g g = true) by (apply leqb_eq; reflexivity); rewrite R in Eg; discriminate).
      split; [intro H; right; split; [intro Q; injection Q; auto|exact H]|]. intros [H|[_ H]]; [|exact H]. destruct b as [b|]; [subst n; contradiction Ng; reflexivity|contradiction].
Qed.
(** Whether the file exists at the end is told by the calls of the run. *)
Lemma makes_names : forall g t1 nm e, (forall i, nm i = named i None t1) -> (makes g t1 e <-> makes_now g nm e).
Proof. intros g t1 nm [a o] H. unfold makes, makes_now. destruct a; try reflexivity. rewrite H. reflexivity. Qed.
Lemma there_snoc : forall g b t e, there g b (t ++ [e]) <-> (makes g t e \/ (fst e <> Outside g None /\ there g b t)).
Proof.
  intros g b t e. unfold there. split.
  - intros [[Hb Hn]|(t1 & e' & t2 & E & Hm & Hn)].
    + right. rewrite map_app in Hn. split; [intro Q; apply Hn, in_or_app; right; left; exact Q|]. left. split; [exact Hb|]. intro Q. apply Hn, in_or_app. left. exact Q.
    + destruct (exists_last (l := e' :: t2) ltac:(discriminate)) as (t3 & e3 & E3). rewrite E3, app_assoc in E. apply app_inj_tail in E as [E ->].
      destruct t3 as [|x t3]; cbn [app] in E3; injection E3 as -> E4.
      * left. rewrite app_nil_r in E. subst t1. exact Hm.
      * right. subst t2. rewrite map_app in Hn. split; [intro Q; apply Hn, in_or_app; right; left; exact Q|]. right. exists t1, x, t3. split; [exact E|]. split; [exact Hm|].
        intro Q. apply Hn, in_or_app. left. exact Q.
  - intros [Hm|[Ne [[Hb Hn]|(t1 & e' & t2 & -> & Hm & Hn)]]].
    + right. exists t, e, []. split; [reflexivity|]. split; [exact Hm|intros []].
    + left. split; [exact Hb|]. rewrite map_app. intro Q. apply in_app_or in Q as [Q|[Q|[]]]; auto.
    + right. exists t1, e', (t2 ++ [e]). split; [rewrite <- app_assoc; reflexivity|]. split; [exact Hm|]. rewrite map_app. intro Q. apply in_app_or in Q as [Q|[Q|[]]]; auto.
Qed.
Lemma program_snoc : forall h w a, program w (h ++ [a]) =
  (fst (act (fst (program w h)) a), snd (program w h) ++ [(a, snd (act (fst (program w h)) a))]).
Proof.
  induction h as [|b h IH]; intros w a; cbn [app program].
  - cbn [fst snd app]. destruct (act w a) as [w1 o]. reflexivity.
  - destruct (act w b) as [w1 o]. specialize (IH w1 a). destruct (program w1 (h ++ [a])) as [w2 t2]. destruct (program w1 h) as [w3 t3]. cbn [fst snd] in *.
    injection IH as -> ->. reflexivity.
Qed.
Lemma program_exists : forall w0 h, (forall j, w_objs w0 j = None) -> forall g, exists_in (fst (program w0 h)) g = true <-> there g (exists_in w0 g) (snd (program w0 h)).
Proof.
  intros w0 h H0 g. induction h as [|a h IH] using rev_ind.
  - cbn [program fst snd]. unfold there. split; [intro H; left; split; [exact H|intros []]|]. intros [[H _]|(t1 & e & t2 & E & _)]; [exact H|]. destruct t1; discriminate.
  - rewrite program_snoc. cbn [fst snd]. rewrite there_snoc. rewrite act_exists. rewrite IH. cbn [fst].
    rewrite (makes_names g _ (names_of (fst (program w0 h)))); [reflexivity|]. intro i.
    rewrite (program_names h w0 (fst (program w0 h)) (snd (program w0 h))) by (destruct (program w0 h); reflexivity). unfold names_of. rewrite H0. reflexivity.
Qed.
Theorem C77_exists : forall w0 h w t i n b, (forall j, w_objs w0 j = None) -> program w0 h = (w, t) -> named i None t = Some n ->
  (snd (act w (AskExists i)) = GaveBool b <-> (b = true <-> there n (match w_files w0 n with Some _ => true | None => false end) t)).
Proof.
  intros w0 h w t i n b H0 E Hn. assert (X := program_exists w0 h H0 n). rewrite E in X. cbn [fst snd] in X. fold (exists_in w0 n). rewrite <- X. clear X.
  assert (A := program_names _ _ _ _ E i). unfold names_of in A at 2. rewrite H0, Hn in A. unfold names_of in A.
  cbn [act]. unfold on_obj, exists_in. destruct (w_objs w i) as [[m u]|]; [|discriminate]. injection A as ->. cbn [snd].
  destruct (w_files w n) as [f|], b; split; try reflexivity; try discriminate; try tauto; intros [H1 H2]; try (specialize (H1 eq_refl); discriminate); try (specialize (H2 eq_refl); discriminate).
Qed.
Print Assumptions C77_exists.

(** Opening and asking do not make the file; a call that fails in its first set
    does; deletion from outside is noticed; the second name counts only if the
    first is not given. *)
Definition prog_names : list op :=
  [DoOpen 0 (Some A) None; DoOpen 1 None (Some A); DoOpen 2 (Some B) (Some A); DoOpen 3 None None; AskName 0; AskName 1; AskName 2; AskExists 0; DoRefresh 0; AskN 1; AskExists 1;
   DoWrite 0 noclock [] (lit "add") true; AskExists 0; DoWrite 0 noclock [ex_bad15] (lit "append") true; AskExists 0; DoWrite 0 noclock [ex_bad15] (lit "ADD") true; AskExists 0; AskExists 1; AskExists 2;
   Outside A None; AskExists 1; Outside A (Some []); AskExists 1; AskName 1].
Example C77_example : map snd (snd (program empty_world prog_names)) =
    [Done; Done; Done; Raised AttributeError; GaveStr A; GaveStr A; GaveStr B; GaveBool false; GaveBool false; GaveNat 0; GaveBool false;
     Raised (PyException "Nothing to write"); GaveBool false; Raised (PyException "Unknown mode"); GaveBool false;
     Raised (PyException "The required key 'x' not present when writing data-set #15"); GaveBool true; GaveBool true; GaveBool false;
     Done; GaveBool false; Done; GaveBool true; GaveStr A]
  /\ (forall j, w_objs empty_world j = None) /\ named 1 None (snd (program empty_world prog_names)) = Some A /\ named 2 None (snd (program empty_world prog_names)) = Some B.
Proof. split; [vm_compute; reflexivity|]. split; [reflexivity|]. split; vm_compute; reflexivity. Qed.
