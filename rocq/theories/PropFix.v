(** fix_58b: C54, C55. *)
From Coq Require Import String List NArith ZArith Bool Lia.
Import ListNotations.
From Verif Require Import PyBase PyNum PyVal Utf8 Tools Ds58 Uff Facts Scan Container ContainerThms Witness PropFun Fix58.
From Coq Require Import Lia SpecFloat.
Open Scope string_scope.
Open Scope list_scope.
Open Scope nat_scope.

(** C54: it ends on every file. *)
Theorem C54_terminates : forall data, exists out, fix_58b data = Ok out.
Proof. exact fix_58b_total. Qed.
Print Assumptions C54_terminates.

(** C54: a file whose last line is not [-1], and that never has two such lines in
    a row (followed by another line), is written out unchanged. *)
Lemma fixes_same : forall l, (forall i x y z, nth_error l (i + 1) = Some x -> nth_error l (i + 2) = Some y -> nth_error l (i + 3) = Some z -> is_m1 x && is_m1 y = false) -> fixes l l.
Proof.
  induction l as [|a l IH]; intro H; [apply fixes_short; cbn; lia|].
  assert (IHl : fixes l l) by (apply IH; intros i x y z; apply (H (S i))).
  destruct l as [|b [|c [|e l]]]; try (apply fixes_short; cbn; lia).
  apply fixes_skip; [|exact IHl]. intros b' c' t E. injection E as <- <- _. eapply (H 0); reflexivity.
Qed.
Lemma fix1_same : forall lines : list bytes, (length lines <= 1 \/ forall l, nth_error lines (length lines - 1) = Some l -> is_m1 l = false) -> fix1 lines = lines.
Proof.
  intros lines H1. unfold fix1. destruct (rev lines) as [|l [|p r]] eqn:E; [reflexivity..|]. assert (El : lines = rev r ++ [p; l]).
  { rewrite <- (rev_involutive lines), E. cbn [rev]. rewrite <- app_assoc. reflexivity. }
  destruct H1 as [H1|H1]; [rewrite El, app_length in H1; cbn [length] in H1; lia|].
  rewrite H1; [reflexivity|]. rewrite El, app_length. cbn [length]. rewrite nth_error_app2 by lia.
  replace (length (rev r) + 2 - 1 - length (rev r)) with 1 by lia. reflexivity.
Qed.
Theorem C54_unchanged : forall data,
  let lines := splitlines_bytes true data in
  (length lines <= 1 \/ forall l, nth_error lines (length lines - 1) = Some l -> is_m1 l = false) ->
  (forall i x y z, nth_error lines (i + 1) = Some x -> nth_error lines (i + 2) = Some y -> nth_error lines (i + 3) = Some z -> is_m1 x && is_m1 y = false) ->
  fix_58b data = Ok data.
Proof.
  intros data lines H1 H2. rewrite (fix_58b_fixes data lines).
  - unfold lines. rewrite join_splitlines. reflexivity.
  - fold lines. rewrite fix1_same by exact H1. apply fixes_same. exact H2.
Qed.
Print Assumptions C54_unchanged.
Example C54_unchanged_example : let data := lit "a    -1
    -1
    58
x    -1
    -1
    15
y    -1
" in length (splitlines_bytes true data) = 7 /\ fix_58b data = Ok data.
Proof.
  intro data. split; [reflexivity|]. apply C54_unchanged.
  - right. intros l H. vm_compute in H. injection H as <-. reflexivity.
  - intros i x y z. do 8 (destruct i as [|i]; [vm_compute; intros; repeat match goal with H : Some _ = Some _ |- _ => injection H as <- | H : None = Some _ |- _ => discriminate H end; reflexivity|]).
    intros H. exfalso. assert (nth_error (splitlines_bytes true data) (S (S (S (S (S (S (S (S i))))))) + 1) = None) by (apply nth_error_None; vm_compute; lia). congruence.
Qed.

(** C54: in a file of text blocks whose lines are not just [-1] and whose last
    lines are not blank and do not contain the delimiter, the sets stay: same
    number, same types, and the bytes of each set lose only the last line break. *)
Theorem C54_sets_kept : forall bs : list tblock,
  bs <> [] -> Forall good bs -> Forall (fun x => framed (tb x)) bs -> Forall (fun x => forall i, prefixb TAG (skipn i (snd x)) = false) bs ->
  exists out u v, fix_58b (file_of (map tb bs)) = Ok out /\ uff_new (Some (file_of (map tb bs))) = Ok u /\ uff_new (Some out) = Ok v /\
    n_sets u = length bs /\ n_sets v = length bs /\ set_types v = set_types u /\
    forall i x, nth_error bs i = Some x -> exists p q t,
      nth_error (block_ind u) i = Some p /\ nth_error (block_ind v) i = Some q /\ eol t /\ extract_block (file_of (map tb bs)) p = extract_block out q ++ t.
Proof.
  intros bs Hne Hg Hf Ht.
  assert (E : fix_58b (file_of (map tb bs)) = Ok (file_of (map mv bs))).
  { destruct (exists_last Hne) as (bs' & l & ->). apply Forall_app in Hg. destruct Hg as [G1 G2]. inversion G2; subst. apply fix_58b_file; assumption. }
  assert (F1 : Forall framed (map tb bs)) by (rewrite Forall_map; exact Hf).
  assert (F2 : Forall framed (map mv bs)).
  { rewrite Forall_map. rewrite Forall_forall in *. intros x Hx. apply framed_moved; auto. }
  assert (N1 : map tb bs <> []) by (destruct bs; [congruence|discriminate]). assert (N2 : map mv bs <> []) by (destruct bs; [congruence|discriminate]).
  destruct (c01 _ N1 F1) as (u & U1 & _ & _ & U4). destruct (c01 _ N2 F2) as (v & V1 & _ & _ & V4).
  exists (file_of (map mv bs)), u, v. split; [exact E|]. split; [exact U1|]. split; [exact V1|].
  rewrite uff_new_view in U1, V1. injection U1 as <-. injection V1 as <-. rewrite (view_framed _ F1), (view_framed _ F2) in *. cbn [n_sets set_types].
  rewrite !map_length, !map_map. split; [reflexivity|]. split; [reflexivity|].
  split; [apply map_ext_in; intros x Hx; apply type_moved; rewrite Forall_forall in Hg; auto|].
  intros i x Hx. destruct (U4 i (tb x)) as (s & e & Hs & _ & _ & Xs); [rewrite nth_error_map, Hx; reflexivity|].
  destruct (V4 i (mv x)) as (s' & e' & Hs' & _ & _ & Xs'); [rewrite nth_error_map, Hx; reflexivity|].
  assert (Gx : good x) by (rewrite Forall_forall in Hg; apply Hg; eapply nth_error_In; exact Hx).
  destruct Gx as [_ _ (t & Et & Hb) _ _ _ _ _]. exists (s, e), (s', e'), t. split; [exact Hs|]. split; [exact Hs'|]. split; [exact Et|].
  rewrite Xs, Xs', Hb. unfold mv, moved. cbn [b_open b_body]. rewrite <- !app_assoc. reflexivity.
Qed.
Print Assumptions C54_sets_kept.
Definition nl (s : string) : bytes := lit s ++ [LF].
Definition tb_ex (ls : list string) (w : string) : tblock :=
  ({| b_open := TAG ++ [LF]; b_body := join (map nl ls) ++ lit w ++ [LF]; b_close := TAG ++ [LF] |}, map nl ls, lit w).
Definition bs_ex : list tblock :=
  [tb_ex ["    15"] "         1         0         0         8  0.00000e+00 -1.00000e+00  2.00000e+00"; tb_ex [] "  9999"; tb_ex ["   164"; "         1                SI         2"; "  1.0"] "  0.0"].
Lemma solid_check : forall w, existsb (fun c => negb (is_ws_bytes c)) w = true -> solid w.
Proof. intros w H. apply existsb_exists in H. destruct H as (c & Hc & E). exists c. split; [exact Hc|]. destruct (is_ws_bytes c); [discriminate|reflexivity]. Qed.
Lemma no_tag_check : forall w, forallb (fun i => negb (prefixb TAG (skipn i w))) (seq 0 (length w)) = true -> forall i, prefixb TAG (skipn i w) = false.
Proof.
  intros w H i. destruct (Nat.lt_ge_cases i (length w)) as [L|L]; [|rewrite skipn_all2 by exact L; reflexivity].
  rewrite forallb_forall in H. specialize (H i ltac:(apply in_seq; lia)). destruct (prefixb TAG (skipn i w)); [discriminate|reflexivity].
Qed.
Lemma inline_check : forall w, forallb (fun c => negb (is_lb_bytes c)) w = true -> inline w.
Proof. intros w H. rewrite forallb_forall in H. apply Forall_forall. intros c Hc. specialize (H c Hc). destruct (is_lb_bytes c); [discriminate|reflexivity]. Qed.
Lemma good_check : forall ls w, forallb (fun s => forallb (fun c => negb (is_lb_bytes c)) (lit s)) (w :: ls) = true ->
  existsb (fun c => negb (is_ws_bytes c)) (lit w) = true -> forallb (fun l => negb (is_m1 l)) (map nl ls) = true ->
  is_m1 (lit w ++ [LF]) = false -> is_m1 (lit w ++ [CR; LF]) = false -> good (tb_ex ls w).
Proof.
  intros ls w H1 H2 H3 H4 H5. rewrite forallb_forall in H1. assert (Hw := H1 w (or_introl eq_refl)). assert (Hl : forall s, In s ls -> forallb (fun c => negb (is_lb_bytes c)) (lit s) = true) by (intros s Hs; apply H1; right; exact Hs). split; unfold tb_ex; cbn [tb fst snd b_open b_close b_body].
  - left. reflexivity.
  - left. reflexivity.
  - exists [LF]. split; [left; reflexivity|reflexivity].
  - rewrite Forall_map. apply Forall_forall. intros s Hs. exists (lit s), [LF]. split; [reflexivity|]. split; [apply inline_check; auto|left; reflexivity].
  - rewrite forallb_forall in H3. apply Forall_forall. intros l Hx. specialize (H3 l Hx). destruct (is_m1 l); [discriminate|reflexivity].
  - apply inline_check. exact Hw.
  - apply solid_check. exact H2.
  - intros t [-> | ->]; assumption.
Qed.
Lemma framed_check : forall ls w, tags (b_body (tb (tb_ex ls w)) ++ TAG ++ [LF]) = [length (b_body (tb (tb_ex ls w)))] -> framed (tb (tb_ex ls w)).
Proof. intros ls w H. split; [left; reflexivity|]. split; [left; reflexivity|]. intros i Hi D. apply tags_In in D. change (b_close (tb (tb_ex ls w))) with (TAG ++ [LF]) in D. rewrite H in D. destruct D as [<-|[]]. lia. Qed.
Example C54_sets_example : bs_ex <> [] /\ Forall good bs_ex /\ Forall (fun x => framed (tb x)) bs_ex /\ Forall (fun x => forall i, prefixb TAG (skipn i (snd x)) = false) bs_ex.
Proof.
  split; [discriminate|]. unfold bs_ex. split; [|split].
  - repeat (apply Forall_cons; [apply good_check; vm_compute; reflexivity|]). apply Forall_nil.
  - repeat (apply Forall_cons; [apply framed_check; vm_compute; reflexivity|]). apply Forall_nil.
  - repeat (apply Forall_cons; [apply no_tag_check; vm_compute; reflexivity|]). apply Forall_nil.
Qed.

(** A well-formed binary set can be damaged: when the last byte of the data is a
    line feed (a value such as 2^-863), it is taken for a line break. *)
Definition v863 : float := S754_finite false (2 ^ 52) (-915).
Definition d58_lf : dict := Eval vm_compute in
  h58 ++ [(KS "abscissa_spacing", VInt 1); (KS "ord_data_type", VInt 4); (KS "binary", VInt 1); (KS "x", VArr DFloat [fv "0"; fv "1"; fv "2"]);
          (KS "data", VArr DFloat [fv "1"; fv "2"; VFloat v863])].
Definition data_of (f : bytes) : option pyval :=
  match read_sets (Some f) (view f) (SelOne 0) false with Ok (_, One d) => dget d (KS "data") | _ => None end.
Theorem C54_payload_refuted : exists f u out,
  write_sets noclock None uff0 [d58_lf] (lit "add") true = (Some f, u, None) /\
  data_of f = Some (VArr DFloat [fv "1"; fv "2"; VFloat v863]) /\
  fix_58b f = Ok out /\ data_of out = Some (VArr DFloat [fv "1"; fv "2"]).
Proof. eexists _, _, _. split; [vm_compute; reflexivity|]. split; [vm_compute; reflexivity|]. split; [vm_compute; reflexivity|]. vm_compute. reflexivity. Qed.
Print Assumptions C54_payload_refuted.

(** C55: whenever the last of several lines is the delimiter without a line break,
    the new file ends in [    -11]: the delimiter is destroyed. *)
Lemma last_two : forall (A : Type) (d a b : A) r, last (a :: b :: r) d = last (b :: r) d.
Proof. reflexivity. Qed.
Lemma fix2_last : forall n fuel l out d, length l <= n -> length l <= fuel -> fix2 fuel l = Ok out -> last out d = last l d /\ (l <> [] -> out <> []).
Proof.
  induction n as [|n IH]; intros fuel l out d Hn Hf E.
  - destruct l; [|cbn in Hn; lia]. destruct fuel; injection E as <-; auto.
  - destruct l as [|a [|b [|c [|e r]]]]; try (destruct fuel; injection E as <-; auto; fail).
    destruct fuel as [|f]; [cbn [length] in Hf; lia|]. cbn [fix2] in E. destruct (is_m1 b && is_m1 c).
    + destruct (IH f (glue a b :: c :: e :: r) out d) as [H1 H2]; [cbn [length] in *; lia..|exact E|]. rewrite H1. split; [reflexivity|]. intros _. apply H2. discriminate.
    + destruct (fix2 f (b :: c :: e :: r)) as [t|x] eqn:Et; [|discriminate]. injection E as <-.
      destruct (IH f (b :: c :: e :: r) t d) as [H1 H2]; [cbn [length] in *; lia..|exact Et|]. split; [|discriminate].
      specialize (H2 ltac:(discriminate)). destruct t; [congruence|]. rewrite last_two, H1. reflexivity.
Qed.
Lemma splitlines_tag : forall a, closed a -> splitlines_bytes true (a ++ TAG) = splitlines_bytes true a ++ [TAG].
Proof.
  assert (G : forall n a c, length a <= n -> is_lb_bytes c = true -> splitlines_bytes true ((a ++ [c]) ++ TAG) = splitlines_bytes true (a ++ [c]) ++ [TAG]).
  { unfold splitlines_bytes. induction n as [|n IH]; intros a c Hn Hc.
    - destruct a; [|cbn in Hn; lia]. cbn [app splitlines]. rewrite Hc. unfold TAG at 1. cbn [lit]. cbn [app].
      unfold is_lb_bytes in Hc. destruct (c =? 13)%N; reflexivity.
    - destruct a as [|x a]; [apply (IH []); [cbn; lia|exact Hc]|]. cbn [app splitlines length] in *. destruct (is_lb_bytes x) eqn:Ex.
      + destruct a as [|y a].
        * cbn [app]. destruct ((x =? 13) && (c =? 10))%N; [reflexivity|]. cbn [app]. f_equal. apply (IH [] c); [cbn; lia|exact Hc].
        * cbn [app]. destruct ((x =? 13) && (y =? 10))%N; [|cbn [app]; f_equal; apply (IH (y :: a) c); [cbn [length] in *; lia|exact Hc]].
          cbn [app]. f_equal. apply IH; [cbn [length] in *; lia|exact Hc].
      + rewrite (IH a c ltac:(lia) Hc). destruct (splitlines is_lb_bytes true (a ++ [c])) as [|l ls] eqn:E; [|reflexivity].
        exfalso. assert (J := join_splitlines (a ++ [c])). unfold splitlines_bytes in J. rewrite E in J. destruct a; discriminate. }
  intros a [->|(p & c & -> & Hc)]; [reflexivity|]. apply (G (length p)); [lia|]. destruct Hc as [-> | ->]; reflexivity.
Qed.
Theorem C55_general_refuted : forall a, closed a -> a <> [] -> exists p, fix_58b (a ++ lit "    -1") = Ok (p ++ lit "    -11").
Proof.
  intros a Ha Hn. change (lit "    -1") with TAG. assert (E := splitlines_tag a Ha).
  assert (N : splitlines_bytes true a <> []). { intro Z. apply Hn. rewrite <- (join_splitlines a). unfold bytes, str in *. rewrite Z. reflexivity. }
  destruct (exists_last N) as (ls & x & Ex). rewrite Ex, <- app_assoc in E. cbn [app] in E.
  assert (F : fix1 (splitlines_bytes true (a ++ TAG)) = ls ++ [glue x TAG]).
  { rewrite E. unfold fix1. change (ls ++ [x; TAG]) with (ls ++ [x] ++ [TAG]). rewrite app_assoc, !rev_app_distr. cbn [rev app].
    change (is_m1 TAG) with true. cbv iota. cbn [rev]. rewrite rev_involutive. reflexivity. }
  destruct (fix2_total (length (splitlines_bytes true (a ++ TAG))) (fix1 (splitlines_bytes true (a ++ TAG))) (length (splitlines_bytes true (a ++ TAG)))) as [out Eo];
    [apply fix1_length|apply fix1_length|].
  destruct (fix2_last _ _ _ out [] (le_n _) (fix1_length _) Eo) as [L1 L2]. rewrite F in L1, L2. rewrite last_last in L1.
  destruct (exists_last (L2 ltac:(destruct ls; discriminate))) as (os & y & ->). rewrite last_last in L1. subst y.
  exists (join os ++ rstrip_crlf x). unfold fix_58b, fix_58b_fuel. rewrite Eo. cbn [rbind]. f_equal. unfold join. rewrite concat_app. cbn [concat].
  rewrite app_nil_r, <- app_assoc. reflexivity.
Qed.
Print Assumptions C55_general_refuted.
(** One set of type 15 without a final line break is found before, and not after. *)
Theorem C55_refuted : exists f out, f = lit "    -1
    15
         1         0         0         8  0.00000e+00 -1.00000e+00  2.00000e+00
    -1" /\ fix_58b f = Ok out /\ n_sets (view f) = 1 /\ set_types (view f) = [15%Z] /\ n_sets (view out) = 0.
Proof. eexists _, _. split; [reflexivity|]. split; [vm_compute; reflexivity|]. split; [vm_compute; reflexivity|]. split; vm_compute; reflexivity. Qed.
Print Assumptions C55_refuted.
