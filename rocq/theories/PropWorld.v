(** C65, C66: programs with several objects and several files. *)
From Coq Require Import String List NArith ZArith Bool Lia.
Import ListNotations.
From Verif Require Import PyBase PyNum PyVal Utf8 Tools DsHeaders DsGroups Ds58 Uff Facts Scan Container Append ContainerThms Lines Stored Fix58 Witness
  RtNodes RtCs RtHeads RtElems RtGroups RtNodal RtFun RtFunSet RtAnalysis PropNodes PropHeads PropGroups PropNodal PropFun PropAnalysis PropContainer PropFix PropHistory World.
From Coq Require Import Lia.
Open Scope string_scope.
Open Scope list_scope.
Open Scope nat_scope.

Lemma set_same : forall f n b, set_file f n b n = b.
Proof. intros. unfold set_file. rewrite leqb_refl. reflexivity. Qed.
Lemma set_other : forall f n b g, g <> n -> set_file f n b g = f g.
Proof. intros f n b g H. unfold set_file. destruct (leqb g n) eqn:E; [apply leqb_eq in E; congruence|reflexivity]. Qed.
Lemma set_id : forall f n g, set_file f n (f n) g = f g.
Proof. intros f n g. unfold set_file. destruct (leqb g n) eqn:E; [apply leqb_eq in E; congruence|reflexivity]. Qed.
Lemma obj_same : forall o i x, set_obj o i x i = Some x.
Proof. intros. unfold set_obj. rewrite Nat.eqb_refl. reflexivity. Qed.
Lemma obj_other : forall o i x j, j <> i -> set_obj o i x j = o j.
Proof. intros o i x j H. unfold set_obj. destruct (Nat.eqb_spec j i); [congruence|reflexivity]. Qed.

(* ------------------------------------------------------------------ *)
(** ** C65: which file a call changes *)

(** The file a call is meant to change. *)
Definition target (w : world) (a : op) : option str :=
  match a with
  | DoWrite i _ _ _ _ => option_map fst (w_objs w i)
  | DoFix src tgt => Some (fix_target src tgt)
  | Outside n _ => Some n
  | _ => None
  end.
Lemma ask_file : forall A (r : result (uff * A)) g f u, fst (fst (ask r g f u)) = f.
Proof. intros A r g f u. unfold ask. destruct r as [[u' x]|e]; reflexivity. Qed.
Lemma on_obj_keeps : forall w i k g, (forall n u, w_objs w i = Some (n, u) -> fst (fst (k n (w_files w n) u)) = w_files w n) ->
  w_files (fst (on_obj w i k)) g = w_files w g.
Proof.
  intros w i k g H. unfold on_obj. destruct (w_objs w i) as [[n u]|]; [|reflexivity]. specialize (H n u eq_refl).
  destruct (k n (w_files w n) u) as [[f' u'] o]. cbn [fst] in H. subst f'. cbn [fst w_files]. apply set_id.
Qed.
Theorem C65_only_target : forall w a g, target w a <> Some g -> w_files (fst (act w a)) g = w_files w g.
Proof.
  intros w a g H. destruct a as [i fn fn'|i|i|i|i|i|i|i|i s ho|i c ds mode fd|src tgt|n b]; cbn [act target] in *;
    try (apply on_obj_keeps; intros n u _; first [apply ask_file|reflexivity]).
  - destruct (chosen fn fn') as [n|]; [|reflexivity]. destruct (uff_new (w_files w n)); reflexivity.
  - unfold on_obj. destruct (w_objs w i) as [[n u]|]; [|reflexivity]. cbn [option_map fst] in H.
    destruct (write_sets c (w_files w n) u ds mode fd) as [[f' u'] e]. cbn [fst w_files]. apply set_other. congruence.
  - destruct (w_files w src); [|reflexivity]. destruct (fix_58b b); [|reflexivity]. cbn [fst w_files]. apply set_other. congruence.
  - cbn [fst w_files]. apply set_other. congruence.
Qed.
Print Assumptions C65_only_target.

(** What [fix_58b] does to the files: nothing if the source is missing; otherwise
    the target holds the fixed content, whatever was there, and no other file has
    changed. *)
Theorem C65_fix : forall w src tgt,
  match w_files w src with
  | None => act w (DoFix src tgt) = (w, Raised (PyException "Filename does not exist"))
  | Some data => exists out w', fix_58b data = Ok out /\ act w (DoFix src tgt) = (w', Done) /\
      w_files w' (fix_target src tgt) = Some out /\ (forall g, g <> fix_target src tgt -> w_files w' g = w_files w g) /\ w_objs w' = w_objs w
  end.
Proof.
  intros w src tgt. cbn [act]. destruct (w_files w src) as [data|]; [|reflexivity]. destruct (C54_terminates data) as [out E]. rewrite E.
  exists out. eexists. split; [reflexivity|]. split; [reflexivity|]. cbn [w_files w_objs]. split; [apply set_same|]. split; [|reflexivity].
  intros g Hg. apply set_other. exact Hg.
Qed.
Print Assumptions C65_fix.

(** The default target: in the directory of the source, its name with "_fixed"
    before the extension. *)
Lemma rfind_spec : forall c s, (rfind1 c s = -1 /\ ~ In c s)%Z \/
  (exists a b, s = a ++ c :: b /\ ~ In c b /\ rfind1 c s = Z.of_nat (length a)).
Proof.
  intros c s. induction s as [|x s IH]; [left; split; [reflexivity|auto]|]. cbn [rfind1]. destruct IH as [[E N]|(a & b & -> & N & E)]; rewrite E.
  - cbn [Z.leb Z.compare]. destruct (N.eqb_spec x c) as [->|D].
    + right. exists [], s. repeat split; [exact N].
    + left. split; [reflexivity|]. intros [->|Hi]; [congruence|auto].
  - right. exists (x :: a), b. destruct (Z.leb_spec 0 (Z.of_nat (length a))); [|lia]. repeat split; [exact N|]. cbn [length]. lia.
Qed.
(** [d] is a directory part: empty, or ending in the separator. *)
Definition directory (d : str) : Prop := d = [] \/ exists d', d = d' ++ [SEP].
Definition dotted (s : str) : Prop := Forall (fun c => c = DOT) s.
Theorem C65_default_target : forall p, exists d base ext,
  p = d ++ base ++ ext /\ directory d /\ ~ In SEP (base ++ ext) /\
  (ext = [] /\ (forall x y, base = x ++ DOT :: y -> ~ In DOT y -> dotted x) \/ (exists e, ext = DOT :: e /\ ~ In DOT e /\ ~ dotted base)) /\
  fix_target p None = d ++ base ++ lit "_fixed" ++ ext /\ fix_target p None <> p.
Proof.
  intro p.
  assert (L : forall d base ext, d ++ base ++ lit "_fixed" ++ ext <> d ++ base ++ ext).
  { intros d base ext E. apply (f_equal (@length N)) in E. rewrite !app_length in E. cbn in E. lia. }
  assert (S : exists d f, p = d ++ f /\ directory d /\ ~ In SEP f /\ (rfind1 SEP p = Z.of_nat (length d) - 1)%Z).
  { destruct (rfind_spec SEP p) as [[E N]|(a & b & -> & N & E)].
    - exists [], p. split; [reflexivity|]. split; [left; reflexivity|]. split; [exact N|]. rewrite E. reflexivity.
    - exists (a ++ [SEP]), b. rewrite <- app_assoc. split; [reflexivity|]. split; [right; eauto|]. split; [exact N|]. rewrite E, app_length. cbn [length]. lia. }
  destruct S as (d & f & -> & Hd & Hf & Es).
  assert (Hdot : forall l, existsb (fun c => negb (c =? DOT)%N) l = false <-> dotted l).
  { intro l. unfold dotted. induction l as [|c l IH]; [split; [constructor|reflexivity]|]. cbn [existsb]. destruct (N.eqb_spec c DOT) as [->|D]; cbn [negb orb].
    - rewrite IH. split; intro H; [constructor; auto|inversion H; auto].
    - split; [discriminate|]. intro H. inversion H. congruence. }
  unfold fix_target, splitext. rewrite Es. destruct (rfind_spec DOT f) as [[E N]|(a & b & -> & N & E)].
  - (* no dot in the last component *)
    assert (C : (rfind1 DOT (d ++ f) <= Z.of_nat (length d) - 1)%Z).
    { destruct (rfind_spec DOT (d ++ f)) as [[E' _]|(a & b & E' & N' & ->)]; [lia|]. destruct (Nat.lt_ge_cases (length a) (length d)) as [|G]; [lia|]. exfalso. apply N.
      apply (f_equal (skipn (length d))) in E'. rewrite skipn_app, skipn_all, Nat.sub_diag in E'. cbn [app skipn] in E'. rewrite E', skipn_app.
      replace (length d - length a) with 0 by lia. apply in_or_app. right. left. reflexivity. }
    destruct (Z.ltb_spec (Z.of_nat (length d) - 1) (rfind1 DOT (d ++ f))); [lia|]. cbn [andb]. exists d, f, [].
    rewrite !app_nil_r. split; [reflexivity|]. split; [exact Hd|]. split; [exact Hf|]. split; [left; split; [reflexivity|]|].
    + intros x y -> _. exfalso. apply N. apply in_or_app. right. left. reflexivity.
    + rewrite <- app_assoc. split; [reflexivity|]. intro Q. specialize (L d f []). rewrite !app_nil_r in L. auto.
  - assert (Er : rfind1 DOT (d ++ a ++ DOT :: b) = Z.of_nat (length d + length a)).
    { destruct (rfind_spec DOT (d ++ a ++ DOT :: b)) as [[E' N']|(a' & b' & E' & N' & ->)].
      - exfalso. apply N'. apply in_or_app. right. apply in_or_app. right. left. reflexivity.
      - f_equal. rewrite app_assoc in E'. rewrite <- app_length. assert (X : rev (d ++ a ++ DOT :: b) = rev (a' ++ DOT :: b')) by (rewrite <- E', app_assoc; reflexivity).
        rewrite app_assoc, !rev_app_distr in X. cbn [rev] in X. rewrite <- !app_assoc in X. cbn [app] in X.
        assert (U : forall u v r s, ~ In DOT u -> ~ In DOT v -> u ++ DOT :: r = v ++ DOT :: s -> length u = length v).
        { clear. induction u as [|x u IH]; intros [|y v] r s Hu Hv Q; cbn in Q; injection Q; intros; subst; [reflexivity| | |].
          - exfalso. apply Hv. left. reflexivity.
          - exfalso. apply Hu. left. reflexivity.
          - cbn [length]. f_equal. eapply IH; [| |eassumption]; intro; [apply Hu|apply Hv]; right; assumption. }
        apply U in X; [|rewrite <- in_rev; assumption|rewrite <- in_rev; assumption]. rewrite !rev_length in X.
        apply (f_equal (@length BinNums.N)) in E'. rewrite !app_length in E'. cbn [length] in E'. rewrite app_length. lia. }
    rewrite Er. destruct (Z.ltb_spec (Z.of_nat (length d) - 1) (Z.of_nat (length d + length a))); [|lia]. cbn [andb].
    replace (Z.to_nat (Z.of_nat (length d) - 1 + 1)) with (length d) by lia. rewrite Nat2Z.id.
    assert (Sl : slice (length d) (length d + length a) (d ++ a ++ DOT :: b) = a).
    { unfold slice. replace (length d + length a - length d) with (length a) by lia. rewrite skipn_app, skipn_all, Nat.sub_diag. cbn [skipn app]. rewrite firstn_app, firstn_all, Nat.sub_diag. cbn [firstn]. apply app_nil_r. }
    rewrite Sl. destruct (existsb _ a) eqn:Ed.
    + exists d, a, (DOT :: b). assert (F : firstn (length d + length a) (d ++ a ++ DOT :: b) = d ++ a).
      { rewrite app_assoc, firstn_app, app_length. rewrite Nat.sub_diag. cbn [firstn]. rewrite app_nil_r. apply firstn_all2. rewrite app_length. lia. }
      assert (K : skipn (length d + length a) (d ++ a ++ DOT :: b) = DOT :: b).
      { rewrite app_assoc, skipn_app, app_length, Nat.sub_diag. cbn [skipn]. rewrite skipn_all2; [reflexivity|]. rewrite app_length. lia. }
      rewrite F, K. split; [reflexivity|]. split; [exact Hd|]. split; [exact Hf|]. split.
      * right. exists b. split; [reflexivity|]. split; [exact N|]. intro Q. apply Hdot in Q. congruence.
      * rewrite <- app_assoc. split; [reflexivity|apply L].
    + apply Hdot in Ed. exists d, (a ++ DOT :: b), []. rewrite !app_nil_r. split; [reflexivity|]. split; [exact Hd|]. split; [exact Hf|]. split.
      * left. split; [reflexivity|]. intros x y Q Hy. assert (U : a = x); [|subst; exact Ed].
        assert (X : rev (a ++ DOT :: b) = rev (x ++ DOT :: y)) by (rewrite Q; reflexivity). rewrite !rev_app_distr in X. cbn [rev] in X. rewrite <- !app_assoc in X. cbn [app] in X.
        assert (U : forall u v r s, ~ In DOT u -> ~ In DOT v -> u ++ DOT :: r = v ++ DOT :: s -> r = s).
        { clear. induction u as [|z u IH]; intros [|t v] r s Hu Hv Q; cbn in Q; injection Q; intros; subst; [reflexivity| | |].
          - exfalso. apply Hv. left. reflexivity.
          - exfalso. apply Hu. left. reflexivity.
          - eapply IH; [| |eassumption]; intro; [apply Hu|apply Hv]; right; assumption. }
        apply U in X; [|rewrite <- in_rev; assumption|rewrite <- in_rev; assumption]. apply (f_equal (@rev BinNums.N)) in X. rewrite !rev_involutive in X. exact X.
      * rewrite <- app_assoc. split; [reflexivity|]. intro Q. specialize (L d (a ++ DOT :: b) []). rewrite !app_nil_r in L. auto.
Qed.
Print Assumptions C65_default_target.
Example C65_names : map (fun p => fix_target p None) (map lit ["data.uff"; "dir.old/data"; "a/b.tar.gz"; "a/.uff"; "..x.unv"; "out"]) =
  map lit ["data_fixed.uff"; "dir.old/data_fixed"; "a/b.tar_fixed.gz"; "a/.uff_fixed"; "..x_fixed.unv"; "out_fixed"].
Proof. vm_compute. reflexivity. Qed.

(* ------------------------------------------------------------------ *)
(** ** C65: programs on different files do not influence each other *)

(** A split of file names and object names into two parts. *)
Definition part (S : str -> bool) (T : nat -> bool) (a : op) : bool :=
  match a with
  | DoOpen i _ _ | DoRefresh i | AskN i | AskTypes i | AskFormats i | AskName i | AskExists i | AskStatus i | DoRead i _ _ | DoWrite i _ _ _ _ => T i
  | DoFix src _ => S src
  | Outside n _ => S n
  end.
(** A call keeps to its part. *)
Definition keeps (S : str -> bool) (T : nat -> bool) (a : op) : Prop :=
  match a with
  | DoOpen i fn fn' => forall n, chosen fn fn' = Some n -> S n = T i
  | DoFix src tgt => S (fix_target src tgt) = S src
  | _ => True
  end.
Definition alike (S : str -> bool) (T : nat -> bool) (v w : world) : Prop :=
  (forall n, S n = true -> w_files v n = w_files w n) /\ (forall i, T i = true -> w_objs v i = w_objs w i).
Definition placed (S : str -> bool) (T : nat -> bool) (w : world) : Prop := forall i n u, w_objs w i = Some (n, u) -> S n = T i.

Lemma on_obj_placed : forall S T w i k, placed S T w -> placed S T (fst (on_obj w i k)).
Proof.
  intros S T w i k H. unfold on_obj. destruct (w_objs w i) as [[n u]|] eqn:E; [|exact H]. destruct (k n (w_files w n) u) as [[f' u'] o].
  intros j m v Hj. cbn [fst w_objs] in Hj. destruct (Nat.eq_dec j i) as [->|D].
  - rewrite obj_same in Hj. injection Hj as <- <-. eapply H. exact E.
  - rewrite obj_other in Hj by exact D. eapply H. exact Hj.
Qed.
Lemma act_placed : forall S T w a, keeps S T a -> placed S T w -> placed S T (fst (act w a)).
Proof.
  intros S T w a Hk H. destruct a; cbn [act keeps] in *; try (apply on_obj_placed; exact H); try exact H.
  - destruct (chosen filename fileName) as [n|]; [|exact H]. destruct (uff_new (w_files w n)) as [u|]; [|exact H].
    intros j m v Hj. cbn [fst w_objs] in Hj. destruct (Nat.eq_dec j i) as [->|D].
    + rewrite obj_same in Hj. injection Hj as <- <-. apply Hk. reflexivity.
    + rewrite obj_other in Hj by exact D. eapply H. exact Hj.
  - destruct (w_files w src); [|exact H]. destruct (fix_58b b); exact H.
Qed.
Lemma alike_file : forall (S : str -> bool) f g n x, (forall m, S m = true -> f m = g m) -> forall m, S m = true -> set_file f n x m = set_file g n x m.
Proof. intros S f g n x H m Hm. unfold set_file. destruct (leqb m n); [reflexivity|auto]. Qed.
Lemma alike_obj : forall (T : nat -> bool) f g i x, (forall m, T m = true -> f m = g m) -> forall m, T m = true -> set_obj f i x m = set_obj g i x m.
Proof. intros T f g i x H m Hm. unfold set_obj. destruct (Nat.eqb m i); [reflexivity|auto]. Qed.
(** A call of the part: the same outcome, and alike afterwards. *)
Lemma on_obj_alike : forall S T v w i k, alike S T v w -> placed S T v -> T i = true ->
  snd (on_obj v i k) = snd (on_obj w i k) /\ alike S T (fst (on_obj v i k)) (fst (on_obj w i k)).
Proof.
  intros S T v w i k [Hf Ho] Hp Hi. unfold on_obj. rewrite <- (Ho i Hi). destruct (w_objs v i) as [[n u]|] eqn:E; [|split; [reflexivity|split; assumption]].
  rewrite <- (Hf n) by (rewrite (Hp _ _ _ E); exact Hi). destruct (k n (w_files v n) u) as [[f' u'] o]. cbn [fst snd]. split; [reflexivity|].
  split; cbn [w_files w_objs]; [apply alike_file|apply alike_obj]; assumption.
Qed.
Lemma act_alike : forall S T v w a, alike S T v w -> placed S T v -> keeps S T a -> part S T a = true ->
  snd (act v a) = snd (act w a) /\ alike S T (fst (act v a)) (fst (act w a)).
Proof.
  intros S T v w a H Hp Hk Ha. destruct a; cbn [act part keeps] in *; try (apply on_obj_alike; assumption).
  - destruct (chosen filename fileName) as [n|]; [|split; [reflexivity|exact H]]. destruct H as [Hf Ho].
    rewrite <- (Hf n) by (rewrite (Hk n eq_refl); exact Ha). destruct (uff_new (w_files v n)) as [u|]; [|split; [reflexivity|split; assumption]].
    split; [reflexivity|]. split; cbn [fst w_files w_objs]; [exact Hf|apply alike_obj; exact Ho].
  - destruct H as [Hf Ho]. rewrite <- (Hf src Ha). destruct (w_files v src) as [b|]; [|split; [reflexivity|split; assumption]].
    destruct (fix_58b b); (split; [reflexivity|]); split; cbn [fst w_files w_objs]; try assumption. apply alike_file. exact Hf.
  - destruct H as [Hf Ho]. split; [reflexivity|]. split; cbn [fst w_files w_objs]; [apply alike_file|]; assumption.
Qed.
(** A call of the other part. *)
Lemma on_obj_other : forall S T v i k, placed S T v -> T i = false -> alike S T (fst (on_obj v i k)) v.
Proof.
  intros S T v i k Hp Hi. unfold on_obj. destruct (w_objs v i) as [[n u]|] eqn:E; [|split; reflexivity]. destruct (k n (w_files v n) u) as [[f' u'] o].
  assert (Hn := Hp _ _ _ E). split; cbn [fst w_files w_objs]; intros m Hm; [apply set_other|apply obj_other]; intros ->; congruence.
Qed.
Lemma act_other : forall S T v a, placed S T v -> keeps S T a -> part S T a = false -> alike S T (fst (act v a)) v.
Proof.
  intros S T v a Hp Hk Ha. destruct a; cbn [act part keeps] in *; try (apply on_obj_other; assumption).
  - destruct (chosen filename fileName) as [n|]; [|split; reflexivity]. destruct (uff_new (w_files v n)) as [u|]; [|split; reflexivity].
    split; cbn [fst w_files w_objs]; intros m Hm; [reflexivity|apply obj_other; intros ->; congruence].
  - destruct (w_files v src) as [b|]; [|split; reflexivity]. destruct (fix_58b b); split; cbn [fst w_files w_objs]; intros m Hm; try reflexivity.
    apply set_other. intros ->. congruence.
  - split; cbn [fst w_files w_objs]; intros m Hm; [|reflexivity]. apply set_other. intros ->. congruence.
Qed.
Lemma independent : forall S T h v w, alike S T v w -> placed S T v -> placed S T w -> Forall (keeps S T) h ->
  alike S T (fst (program v h)) (fst (program w (filter (part S T) h))) /\
  filter (fun ao => part S T (fst ao)) (snd (program v h)) = snd (program w (filter (part S T) h)).
Proof.
  intros S T h. induction h as [|a h IH]; intros v w H Hv Hw Hk; [split; [exact H|reflexivity]|]. inversion Hk as [|? ? Ka Kh]; subst. cbn [program filter].
  assert (Pv := act_placed S T v a Ka Hv). destruct (part S T a) eqn:Ea.
  - destruct (act_alike S T v w a H Hv Ka Ea) as [E1 E2]. assert (Pw := act_placed S T w a Ka Hw). cbn [program].
    destruct (act v a) as [v1 o1], (act w a) as [w1 o2]. cbn [fst snd] in *. subst o2. destruct (IH v1 w1 E2 Pv Pw Kh) as [I1 I2].
    destruct (program v1 h) as [v2 t1], (program w1 (filter (part S T) h)) as [w2 t2]. cbn [fst snd filter] in *. rewrite Ea. split; [exact I1|]. rewrite I2. reflexivity.
  - assert (E2 := act_other S T v a Hv Ka Ea). destruct (act v a) as [v1 o1]. cbn [fst] in *.
    assert (E3 : alike S T v1 w) by (destruct E2 as [F1 F2], H as [G1 G2]; split; intros m Hm; [rewrite F1, G1 by exact Hm|rewrite F2, G2 by exact Hm]; reflexivity).
    destruct (IH v1 w E3 Pv Hw Kh) as [I1 I2]. destruct (program v1 h) as [v2 t1]. cbn [fst snd filter] in *. rewrite Ea. split; assumption.
Qed.
(** The calls of one part, in any program, have the outcomes and leave the files
    that they have and leave without the others. *)
Theorem C65_independent : forall S T w h, (forall i n u, w_objs w i = Some (n, u) -> S n = T i) -> Forall (keeps S T) h ->
  filter (fun ao => part S T (fst ao)) (snd (program w h)) = snd (program w (filter (part S T) h)) /\
  forall n, S n = true -> w_files (fst (program w h)) n = w_files (fst (program w (filter (part S T) h))) n.
Proof.
  intros S T w h Hp Hk. destruct (independent S T h w w) as [[I1 _] I2]; [split; reflexivity|exact Hp|exact Hp|exact Hk|]. split; assumption.
Qed.
Print Assumptions C65_independent.

(** Two files and three objects; the calls on one of them are interleaved with
    calls on the other, among them a failing one and [fix_58b]. *)
Definition A : str := lit "a.uff".
Definition B : str := lit "b.uff".
Definition empty_world : world := {| w_files := fun _ => None; w_objs := fun _ => None |}.
Definition prog_ex : list op :=
  [DoOpen 0 (Some A) None; DoOpen 1 None (Some B); DoWrite 0 noclock [d164] (lit "Add") true; DoWrite 1 noclock [d82] (lit "overwrite") true;
   DoWrite 1 noclock [ex_bad15] (lit "add") true; DoFix B None; DoOpen 2 (Some A) None; DoWrite 2 noclock [d15; d82] (lit "add") true; AskN 1; DoFix A (Some A); AskN 0; AskTypes 2].
Definition on_A (n : str) : bool := leqb n A || leqb n (lit "a_fixed.uff").
Definition by_A (i : nat) : bool := negb (Nat.eqb i 1).
Example C65_example : Forall (keeps on_A by_A) prog_ex /\ length (filter (part on_A by_A) prog_ex) = 7 /\ map snd (snd (program empty_world prog_ex)) =
    [Done; Done; Done; Done; Raised (PyException "The required key 'x' not present when writing data-set #15"); Done; Done; Done; GaveNat 1; Done; GaveNat 1; GaveInts [164; 15; 82]%Z].
Proof.
  split; [|split; vm_compute; reflexivity].
  unfold prog_ex. repeat (apply Forall_cons || apply Forall_nil); cbn [keeps]; try exact Logic.I; try (intros n E; injection E as <-; vm_compute; reflexivity); vm_compute; reflexivity.
Qed.

(* ------------------------------------------------------------------ *)
(** ** C66: the history of a file in a program *)

(** The calls of [write_sets] on file [g], with their outcomes, by whatever object;
    [on i] is the file of object [i]. *)
Definition wcall : Type := (clock * str * bool * list dict)%type.
Definition bind (on : nat -> option str) (i : nat) (n : str) : nat -> option str := fun k => if Nat.eqb k i then Some n else on k.
Fixpoint writes_to (g : str) (on : nat -> option str) (t : list (op * outcome)) : list (wcall * outcome) :=
  match t with
  | [] => []
  | (DoOpen i fn fn', o) :: r => writes_to g (match chosen fn fn' with Some n => bind on i n | None => on end) r
  | (DoWrite i c ds mode fd, o) :: r =>
      match on i with
      | Some n => if leqb n g then ((c, mode, fd, ds), o) :: writes_to g on r else writes_to g on r
      | None => writes_to g on r
      end
  | _ :: r => writes_to g on r
  end.
(** The file is not changed by [fix_58b] or from outside. *)
Definition spares (g : str) (a : op) : Prop :=
  match a with DoFix src tgt => fix_target src tgt <> g | Outside n _ => n <> g | _ => True end.
Definition well_formed (call : wcall) (x : wmode * list content) : Prop :=
  let '(c, mode, fd, ds) := call in exists m, parse_mode mode = Ok m /\ call_states (c, m, fd, ds) x.
(** What an object on [g] gives that has just been made or refreshed. *)
Definition tells (w : world) (i : nat) (xs : list content) : Prop :=
  snd (act w (AskN i)) = GaveNat (length xs) /\ snd (act w (AskTypes i)) = GaveInts (map type_of xs) /\
  (forall ho, snd (act w (DoRead i SelAll ho)) = GaveSets (shape_result (map (reading ho) xs))) /\
  (forall ho k x, nth_error xs k = Some x -> snd (act w (DoRead i (SelOne (Z.of_nat k)) ho)) = GaveSets (One (reading ho x))).

Definition held (bs : list block) : option bytes := match bs with [] => None | _ => Some (file_of bs) end.
Definition names (on : nat -> option str) (w : world) : Prop := forall i, on i = option_map fst (w_objs w i).
Lemma write_mode : forall c f u ds mode m fd, parse_mode mode = Ok m -> write_sets c f u ds mode fd = write_sets c f u ds (mode_name m) fd.
Proof. intros c f u ds mode m fd H. unfold write_sets. destruct ds; [reflexivity|]. rewrite H, parse_mode_name. reflexivity. Qed.
Lemma on_obj_names : forall on w i k, names on w -> names on (fst (on_obj w i k)).
Proof.
  intros on w i k H j. unfold on_obj. destruct (w_objs w i) as [[n u]|] eqn:E; [|apply H]. destruct (k n (w_files w n) u) as [[f' u'] o]. cbn [fst w_objs].
  destruct (Nat.eq_dec j i) as [->|D]; [rewrite obj_same; cbn [option_map fst]; rewrite (H i), E; reflexivity|rewrite obj_other by exact D; apply H].
Qed.
Lemma history_blocks : forall g h on w bs xs cs, names on w -> Forall (spares g) h -> blocks_for bs xs -> w_files w g = held bs ->
  Forall2 (fun co x => well_formed (fst co) x) (writes_to g on (snd (program w h))) cs ->
  exists bs', blocks_for bs' (fold_left step cs xs) /\ w_files (fst (program w h)) g = held bs' /\
    Forall (fun co => snd co = Done) (writes_to g on (snd (program w h))).
Proof.
  intros g h. induction h as [|a h IH]; intros on w bs xs cs Hn Hs Hb Hg Hc.
  - cbn in Hc. inversion Hc; subst. exists bs. split; [exact Hb|]. split; [exact Hg|constructor].
  - inversion Hs as [|? ? Ha Hh]; subst. cbn [program] in *. destruct (act w a) as [w1 o] eqn:Ea.
    assert (E1 : w1 = fst (act w a)) by (rewrite Ea; reflexivity). assert (Eo : o = snd (act w a)) by (rewrite Ea; reflexivity).
    destruct (program w1 h) as [w2 t] eqn:Et. cbn [fst snd] in *.
    assert (Step : forall on', names on' w1 -> w_files w1 g = held bs -> Forall2 (fun co x => well_formed (fst co) x) (writes_to g on' t) cs ->
      exists bs', blocks_for bs' (fold_left step cs xs) /\ w_files w2 g = held bs' /\ Forall (fun co => snd co = Done) (writes_to g on' t)).
    { intros on' N1 G1 C1. specialize (IH on' w1 bs xs cs N1 Hh Hb G1). rewrite Et in IH. cbn [fst snd] in IH. exact (IH C1). }
    assert (Same : target w a <> Some g -> w_files w1 g = held bs) by (intro Ht; subst w1; rewrite C65_only_target by exact Ht; exact Hg).
    destruct a as [i fn fn'|i|i|i|i|i|i|i|i s ho|i c ds mode fd|src tgt|n b]; cbn [writes_to] in *;
      try (apply Step; [subst w1; cbn [act]; apply on_obj_names; exact Hn|apply Same; discriminate|exact Hc]).
    + apply Step; [|apply Same; discriminate|exact Hc]. subst w1. cbn [act]. destruct (chosen fn fn') as [n|]; [|exact Hn].
      assert (exists u, uff_new (w_files w n) = Ok u) as [u ->].
      { destruct (w_files w n); [rewrite uff_new_view; eauto|]. eexists. reflexivity. }
      intro j. cbn [fst w_objs]. unfold bind. destruct (Nat.eqb_spec j i) as [->|D]; [rewrite obj_same; reflexivity|rewrite obj_other by exact D; apply Hn].
    + rewrite (Hn i) in *. destruct (w_objs w i) as [[n u]|] eqn:Eu; cbn [option_map fst] in *.
      * destruct (leqb n g) eqn:El.
        -- apply leqb_eq in El. subst n. inversion Hc as [|co x rest cs' Wc Wr E2 E3]; subst co cs. cbn [fst] in Wc. destruct Wc as (m & Hm & Hx).
           destruct (call_blocks _ _ Hx) as (ns & Hst & Hns & Hfm). destruct (write_sets_stored c m fd ds ns bs u Hst (blocks_framed _ _ Hb)) as (Hw & Hf & Hne).
           rewrite <- (write_mode c _ u ds mode m fd Hm) in Hw. fold (held bs) in Hw. cbn [act] in E1, Eo. unfold on_obj in E1, Eo. rewrite Eu, Hg, Hw in E1, Eo. cbn [fst snd] in E1, Eo.
           assert (Hstep : blocks_for (replay1 m bs ns) (step xs x)).
           { destruct x as [m' ys]. cbn [fst snd] in *. subst m'. unfold step. cbn [fst snd]. destruct m; cbn [replay1]; [exact Hns|]. apply Forall2_app; assumption. }
           assert (N1 : names on w1).
           { subst w1. intro j. cbn [w_objs]. destruct (Nat.eq_dec j i) as [->|D]; [rewrite obj_same, (Hn i), Eu; reflexivity|rewrite obj_other by exact D; apply Hn]. }
           assert (G1 : w_files w1 g = held (replay1 m bs ns)).
           { subst w1. cbn [w_files]. rewrite set_same. unfold held. destruct (replay1 m bs ns); [congruence|reflexivity]. }
           specialize (IH on w1 (replay1 m bs ns) (step xs x) cs' N1 Hh Hstep G1). rewrite Et in IH. cbn [fst snd] in IH. destruct (IH Wr) as (bs' & H1 & H2 & H3).
           exists bs'. split; [exact H1|]. split; [exact H2|]. constructor; [subst o; reflexivity|exact H3].
        -- apply Step; [subst w1; cbn [act]; apply on_obj_names; exact Hn| |exact Hc]. apply Same. cbn [target]. rewrite Eu. cbn [option_map fst]. intro Q. injection Q as ->. rewrite leqb_refl in El. discriminate.
      * apply Step; [subst w1; cbn [act]; apply on_obj_names; exact Hn| |exact Hc]. apply Same. cbn [target]. rewrite Eu. discriminate.
    + apply Step; [|apply Same; cbn [target spares] in *; congruence|exact Hc]. subst w1. cbn [act]. destruct (w_files w src) as [b|]; [|exact Hn]. destruct (fix_58b b); exact Hn.
    + apply Step; [|apply Same; cbn [target spares] in *; congruence|exact Hc]. subst w1. exact Hn.
Qed.
Lemma extents_some : forall b bs, Forall framed (b :: bs) -> extents (file_of (b :: bs)) <> [].
Proof.
  intros b bs H E. destruct (C01_framed_blocks (b :: bs) ltac:(discriminate) H) as (u & Hu & Hn & _). rewrite uff_new_view in Hu. injection Hu as <-. unfold view in Hn. cbn [n_sets] in Hn. rewrite E in Hn. discriminate.
Qed.
Lemma tells_view : forall w i g bs xs, blocks_for bs xs -> w_files w g = Some (file_of bs) -> w_objs w i = Some (g, view (file_of bs)) -> tells w i xs.
Proof.
  intros w i g bs xs Hb Hg Hi. assert (Hf := blocks_framed _ _ Hb).
  assert (Hrd : forall ho, Forall2 (fun b o => reads b ho o) bs (map (reading ho) xs)).
  { intro ho. clear -Hb. induction Hb as [|b x bs xs (_ & _ & Hx) _ IH]; constructor; auto. }
  assert (Hty : map (fun b => type_in (b_body b)) bs = map type_of xs).
  { clear -Hb. induction Hb as [|b x bs xs (_ & Hx & _) _ IH]; [reflexivity|]. cbn [map]. rewrite Hx, IH. reflexivity. }
  destruct (read_blocks bs true _ Hf (Hrd true)) as (_ & _ & Hns & Hts). rewrite map_length in Hns.
  unfold tells. cbn [act]. unfold on_obj. rewrite Hi, Hg. split; [|split; [|split]].
  - unfold get_n_sets. rewrite sync_view. cbn [rbind ask snd]. rewrite Hns. reflexivity.
  - unfold get_set_types. rewrite sync_view. cbn [rbind ask snd]. rewrite Hts, Hty. reflexivity.
  - intro ho. destruct (read_blocks bs ho _ Hf (Hrd ho)) as (Ha & _). rewrite Ha. reflexivity.
  - intros ho k x Hx. destruct (read_blocks bs ho _ Hf (Hrd ho)) as (_ & Hk & _). rewrite (Hk k (reading ho x)); [reflexivity|]. rewrite nth_error_map, Hx. reflexivity.
Qed.
(** Any program, started without objects and without the file [g], in which the
    calls of [write_sets] on [g] (by any objects) are well formed: all of them
    succeed, and an object made on [g] afterwards, or one on [g] that is
    refreshed, reports and reads exactly the replayed list of sets. *)
Theorem C66_history : forall g h w0 w t cs, program w0 h = (w, t) -> (forall i, w_objs w0 i = None) -> w_files w0 g = None -> Forall (spares g) h ->
  Forall2 (fun co x => well_formed (fst co) x) (writes_to g (fun _ => None) t) cs -> cs <> [] ->
  Forall (fun co => snd co = Done) (writes_to g (fun _ => None) t) /\
  (forall i, snd (act w (DoOpen i (Some g) None)) = Done /\ tells (fst (act w (DoOpen i (Some g) None))) i (replay cs)) /\
  (forall i u, w_objs w i = Some (g, u) -> snd (act w (DoRefresh i)) = GaveBool true /\ tells (fst (act w (DoRefresh i))) i (replay cs)).
Proof.
  intros g h w0 w t cs Hr Ho Hg Hs Hc Hne. assert (Hn : names (fun _ => None) w0) by (intro i; rewrite Ho; reflexivity).
  assert (Q := history_blocks g h (fun _ => None) w0 [] [] cs Hn Hs (Forall2_nil _) Hg). rewrite Hr in Q. cbn [fst snd] in Q. destruct (Q Hc) as (bs & Hb & Hf & Hd).
  change (fold_left step cs []) with (replay cs) in Hb. split; [exact Hd|].
  assert (Fr := blocks_framed _ _ Hb).
  assert (Hf' : w_files w g = Some (file_of bs)).
  { destruct bs as [|b bs]; [|exact Hf]. exfalso. assert (K : forall l xs, Forall2 (fun (co : wcall * outcome) x => well_formed (fst co) x) l cs -> cs <> [] -> fold_left step cs xs <> []).
    { clear. intros l xs H. revert xs. induction H as [|co x l cs Hx H IH]; intros xs Hn; [congruence|]. cbn [fold_left].
      assert (N : step xs x <> []).
      { destruct co as [[[[c mode] fd] ds] o]. cbn [fst well_formed] in Hx. destruct Hx as (m & _ & Hx). inversion Hx; subst. unfold step. cbn [fst snd]. destruct m; [discriminate|]. intro E. apply app_eq_nil in E as [_ E]. discriminate. }
      destruct cs as [|y cs]; [exact N|]. apply IH. discriminate. }
    apply (K _ [] Hc Hne). change (replay cs = []). revert Hb. generalize (replay cs). intros l Hb. inversion Hb. reflexivity. }
  split.
  - intro i. cbn [act chosen]. rewrite Hf', uff_new_view. cbn [fst snd]. split; [reflexivity|]. eapply tells_view; [exact Hb|exact Hf'|]. cbn [w_objs]. apply obj_same.
  - intros i u Hi. cbn [act]. unfold on_obj. rewrite Hi, Hf'. rewrite refresh_view.
    + cbn [ask fst snd]. split; [reflexivity|]. eapply tells_view; [exact Hb| |]; cbn [w_files w_objs]; [apply set_same|apply obj_same].
    + destruct bs as [|b bs]; [|apply extents_some; exact Fr]. cbn [held] in Hf. congruence.
Qed.
Print Assumptions C66_history.
(** Object 0 and object 2 write to the same file in turn; object 0 does not know of
    the sets of object 2 until it is refreshed (see C07). *)
Definition prog66 : list op :=
  [DoOpen 0 (Some A) None; DoOpen 1 None (Some B); DoWrite 0 noclock [d164] (lit "Add") true; DoWrite 1 noclock [d82] (lit "overwrite") true;
   DoOpen 2 (Some A) None; DoWrite 2 noclock [d15; d82] (lit "add") true; DoRead 1 SelAll false; DoFix A None; DoWrite 0 noclock [d18] (lit "ADD") true].
Lemma writes_ops : forall g h w on o, map fst (writes_to g on (snd (program w h))) = map fst (writes_to g on (map (fun a => (a, o)) h)).
Proof.
  intros g h. induction h as [|a h IH]; intros w on o; [reflexivity|]. cbn [program map]. destruct (act w a) as [w1 o1]. specialize (IH w1). destruct (program w1 h) as [w2 t]. cbn [snd] in *.
  destruct a; cbn [writes_to]; try apply IH. destruct (on i) as [n|]; [|apply IH]. destruct (leqb n g); [|apply IH]. cbn [map]. rewrite (IH on o). reflexivity.
Qed.
Example C66_example : Forall (spares A) prog66 /\
  Forall2 (fun co x => well_formed (fst co) x) (writes_to A (fun _ => None) (snd (program empty_world prog66))) [(Add, [X164 u164]); (Add, [X15 r15; X82 t82]); (Add, [X18 r18])] /\
  replay [(Add, [X164 u164]); (Add, [X15 r15; X82 t82]); (Add, [X18 r18])] = [X164 u164; X15 r15; X82 t82; X18 r18].
Proof.
  split.
  { unfold prog66. repeat (apply Forall_cons || apply Forall_nil); cbn [spares]; try exact Logic.I; vm_compute; discriminate. }
  split; [|reflexivity]. assert (F : forall l cs, Forall2 well_formed (map fst l) cs -> Forall2 (fun (co : wcall * outcome) x => well_formed (fst co) x) l cs).
  { clear. induction l as [|co l IH]; intros cs H; inversion H; subst; constructor; auto. }
  apply F. rewrite (writes_ops A prog66 empty_world (fun _ => None) Done). clear F.
  assert (W : map fst (writes_to A (fun _ => None) (map (fun a => (a, Done)) prog66)) = [(noclock, lit "Add", true, [d164]); (noclock, lit "add", true, [d15; d82]); (noclock, lit "ADD", true, [d18])]) by (vm_compute; reflexivity).
  rewrite W. clear W.
  repeat first [apply Forall2_cons | apply Forall2_nil]; cbn [well_formed]; exists Add; (split; [vm_compute; reflexivity|]);
    apply call_of; repeat first [apply Forall2_cons | apply Forall2_nil].
  - exact C38_example.
  - exact C23_example.
  - exact C34_example.
  - exact C24_example.
Qed.
