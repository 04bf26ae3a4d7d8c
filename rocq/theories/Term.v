(** Termination of the readers.  A loop of the source that may not end is modelled
    with fuel; [Err OutOfFuel] is the outcome of a run that is not over yet. *)
From Coq Require Import String List NArith ZArith Bool Lia.
Import ListNotations.
From Verif Require Import PyBase PyNum PyVal Utf8 Tools DsNodes DsHeaders DsGroups Ds55 Ds58 Ds2414 Uff.
From Coq Require Import Lia.
Open Scope list_scope.
Open Scope nat_scope.

(* ------------------------------------------------------------------ *)
(** ** Functions without loops that need fuel *)

Definition ends {A} (r : result A) : Prop := r <> Err OutOfFuel.
Lemma ends_ok : forall A (a : A), ends (Ok a).
Proof. discriminate. Qed.
Lemma ends_bind : forall A B (r : result A) (k : A -> result B), ends r -> (forall a, r = Ok a -> ends (k a)) -> ends (rbind r k).
Proof. intros A B [a|e] k Hr Hk; cbn; [apply Hk; reflexivity|]. intro E. injection E as ->. apply Hr. reflexivity. Qed.
Lemma ends_try : forall A (r : result A) e, e <> OutOfFuel -> ends r -> ends (try_any r e).
Proof. intros A [a|[]] e He Hr; unfold ends in *; cbn; congruence. Qed.
Lemma ends_option : forall A e (o : option A), e <> OutOfFuel -> ends (of_option e o).
Proof. intros A e [a|] H; unfold ends; cbn; congruence. Qed.
Lemma ends_rseq : forall A (l : list (result A)), Forall ends l -> ends (rseq l).
Proof. intros A l H. induction H as [|r l Hr _ IH]; [discriminate|]. cbn [rseq]. apply ends_bind; [exact Hr|]. intros a _. apply ends_bind; [exact IH|]. discriminate. Qed.
Lemma ends_rmap : forall A B (f : A -> result B) l, (forall a, ends (f a)) -> ends (rmap f l).
Proof. intros A B f l H. apply ends_rseq. rewrite Forall_map, Forall_forall. auto. Qed.

Ltac ends1 :=
  match goal with
  | |- ends (Ok _) => discriminate
  | |- ends (Err _) => discriminate
  | H : ends ?r |- ends ?r => exact H
  | |- ends (rbind _ _) => apply ends_bind; [|intros ? ?]
  | |- ends (try_any _ _) => apply ends_try; [discriminate|]
  | |- ends (of_option _ _) => apply ends_option; discriminate
  | |- ends (rmap _ _) => apply ends_rmap; intro
  | |- ends (rseq _) => apply ends_rseq
  | |- Forall ends (map _ _) => apply Forall_map; apply Forall_forall; intros ? ?
  | |- ends _ => solve [auto with ends]
  | |- ends (let '(_, _) := ?x in _) => destruct x
  | |- ends (if ?b then _ else _) => destruct b
  | |- ends (match ?x with _ => _ end) => destruct x eqn:?
  | |- ends (let _ := _ in _) => cbv zeta
  end.
Ltac ends_tac := repeat ends1.

Lemma ends_ln : forall (l : list str) i, ends (ln l i).
Proof. intros. unfold ln. ends_tac. Qed.
Lemma ends_py_nth : forall A (l : list A) i, ends (py_nth l i).
Proof. intros. unfold py_nth. ends_tac. Qed.
Lemma ends_py_int : forall s, ends (py_int s).
Proof. intros. unfold py_int. ends_tac. Qed.
Lemma ends_py_float : forall s, ends (py_float s).
Proof. intros. unfold py_float. ends_tac. Qed.
Lemma ends_ix : forall d k, ends (ix d k).
Proof. intros. unfold ix. ends_tac. Qed.
#[export] Hint Resolve ends_ln ends_py_nth ends_py_int ends_py_float ends_ix : ends.
Lemma ends_parse_ints : forall l, ends (parse_ints l).
Proof. intros. unfold parse_ints. ends_tac. Qed.
Lemma ends_parse_floats : forall l, ends (parse_floats l).
Proof. intros. unfold parse_floats. ends_tac. Qed.
Lemma ends_to_seq : forall v, ends (to_seq v).
Proof. intros. unfold to_seq. ends_tac. Qed.
Lemma ends_field_val : forall t s, ends (field_val t s).
Proof. intros. unfold field_val. ends_tac. Qed.
#[export] Hint Resolve ends_parse_ints ends_parse_floats ends_to_seq ends_field_val : ends.
Lemma ends_mandatory : forall l d, ends (mandatory d l).
Proof. induction l as [|[k [t s]] l IH]; intro d; cbn [mandatory]; [discriminate|]. apply ends_bind; [auto with ends|]. intros v _. apply IH. Qed.
Lemma ends_optional : forall l d, ends (optional d l).
Proof.
  induction l as [|[k [t s]] l IH]; intro d; cbn [optional]; [discriminate|]. assert (F := ends_field_val t s).
  destruct (field_val t s) as [v|e]; [apply IH|]. destruct e; try discriminate; [apply IH|]. exfalso. apply F. reflexivity.
Qed.
#[export] Hint Resolve ends_mandatory ends_optional : ends.
Lemma ends_header_line : forall l m w t n, ends (parse_header_line l m w t n).
Proof. intros. unfold parse_header_line. ends_tac. Qed.
#[export] Hint Resolve ends_header_line : ends.
Lemma ends_header_recs : forall l lines d, ends (header_recs lines d l).
Proof. induction l as [|h l IH]; intros lines d; cbn [header_recs]; ends_tac. Qed.
#[export] Hint Resolve ends_header_recs : ends.
Lemma ends_np_cjoin : forall a b, ends (np_cjoin a b).
Proof. intros. unfold np_cjoin, bcast2. ends_tac. Qed.
Lemma ends_np_int_array : forall l, ends (np_int_array l).
Proof. intros. unfold np_int_array. ends_tac. Qed.
Lemma ends_vix : forall v k, ends (vix v k).
Proof. intros. unfold vix. ends_tac. Qed.
#[export] Hint Resolve ends_np_cjoin ends_np_int_array ends_vix : ends.

Lemma ends15 : forall b, ends (extract15 b).
Proof. intro. unfold extract15, read_error. ends_tac. Qed.
Lemma ends18 : forall b, ends (extract18 b).
Proof. intro. unfold extract18, fixed_floats, stack3T. ends_tac. Qed.
Lemma ends82 : forall b, ends (extract82 b).
Proof. intro. unfold extract82. ends_tac. Qed.
Lemma ends2411 : forall b, ends (extract2411 b).
Proof. intro. unfold extract2411. ends_tac. Qed.
Lemma ends_mats : forall m a b c e, ends (mats2420 m a b c e).
Proof. induction m as [|m IH]; intros; cbn [mats2420]; ends_tac. Qed.
#[export] Hint Resolve ends_mats : ends.
Lemma ends2420 : forall b, ends (extract2420 b).
Proof. intro. unfold extract2420. ends_tac. Qed.
Lemma ends151 : forall b, ends (extract151 b).
Proof. intro. unfold extract151. ends_tac. Qed.
Lemma ends164 : forall b, ends (extract164 b).
Proof. intro. unfold extract164, factor164. ends_tac. Qed.
Lemma ends1858 : forall b, ends (extract1858 b).
Proof. intro. unfold extract1858. ends_tac. Qed.
Lemma ends2400 : forall b, ends (extract2400 b).
Proof. intro. unfold extract2400. ends_tac. Qed.
Lemma ends55 : forall b, ends (extract55 b).
Proof. intro. unfold extract55, read7_8, np_rows, cjoin_keys, get_float. ends_tac. Qed.
Lemma ends58 : forall b ho, ends (extract58 b ho).
Proof. intros. unfold extract58, binary_values, ascii_values, assemble58, get_float. ends_tac. Qed.

Lemma ends_tok_int : forall t i, ends (tok_int t i).
Proof. intros. unfold tok_int. ends_tac. Qed.
#[export] Hint Resolve ends_tok_int : ends.

(* ------------------------------------------------------------------ *)
(** ** 2412: every iteration consumes lines *)

Lemma elem_shorter : forall line rest e fd rest', read_elem2412 line rest = Ok (e, fd, rest') -> length rest' < S (length rest).
Proof.
  intros line rest e fd rest'. unfold read_elem2412. intro H.
  repeat (match type of H with
          | rbind ?r _ = Ok _ => destruct r eqn:?; cbn [rbind] in H; [|discriminate H]
          | (if ?b then _ else _) = Ok _ => destruct b
          | match ?l with [] => _ | _ => _ end = Ok _ => destruct l; [discriminate H|]
          | Ok _ = Ok _ => injection H as <- <- <-; cbn [length]; lia
          end).
Qed.
Lemma ends_elem : forall line rest, ends (read_elem2412 line rest).
Proof. intros. unfold read_elem2412. ends_tac. Qed.
#[export] Hint Resolve ends_elem : ends.
Lemma ends_loop2412 : forall fuel lines d, length lines <= fuel -> ends (loop2412 fuel lines d).
Proof.
  induction fuel as [|f IH]; intros [|l rest] d H; cbn [loop2412]; try discriminate; [cbn in H; lia|].
  apply ends_bind; [auto with ends|]. intros [[e desc] rest'] E. apply IH. apply elem_shorter in E. cbn [length] in H. unfold str in *. lia.
Qed.
Lemma ends_legacy : forall d n k, ends (legacy d n k).
Proof. intros. unfold legacy, column. ends_tac. Qed.
#[export] Hint Resolve ends_legacy : ends.
Lemma ends2412 : forall b, ends (extract2412 b).
Proof. intro b. unfold extract2412. cbv zeta. apply ends_try; [discriminate|]. apply ends_bind; [apply ends_loop2412; apply Nat.le_refl|]. intros; ends_tac. Qed.

(* ------------------------------------------------------------------ *)
(** ** Loops over a line index *)

Fixpoint gloop {S} (go : Z -> bool) (body : Z -> result (Z * (S -> S))) (fuel : nat) (li : Z) (s : S) : result S :=
  if go li then
    match fuel with
    | O => Err OutOfFuel
    | Datatypes.S f => do '(li', g) <- body li ;; gloop go body f li' (g s)
    end
  else Ok s.

Lemma gloop_more : forall S go (body : Z -> result (Z * (S -> S))) f f' li s, f <= f' ->
  ends (gloop go body f li s) -> gloop go body f' li s = gloop go body f li s.
Proof.
  intros S go body. induction f as [|f IH]; intros f' li s Hf H.
  - cbn [gloop] in *. destruct f'; cbn [gloop]; destruct (go li); try reflexivity; exfalso; apply H; reflexivity.
  - destruct f' as [|f']; [lia|]. cbn [gloop] in *. destruct (go li); [|reflexivity].
    destruct (body li) as [[li' g]|e]; [|reflexivity]. cbn [rbind] in *. apply IH; [lia|exact H].
Qed.

(** The indices at which a terminating run calls the body successfully. *)
Inductive path {S} (go : Z -> bool) (body : Z -> result (Z * (S -> S))) : Z -> list Z -> Prop :=
| p_stop : forall li, go li = false -> path go body li []
| p_fail : forall li e, go li = true -> body li = Err e -> path go body li []
| p_step : forall li li' g p, go li = true -> body li = Ok (li', g) -> path go body li' p -> path go body li (li :: p).

Lemma path_of : forall S go (body : Z -> result (Z * (S -> S))) f li s, (forall i, ends (body i)) ->
  ends (gloop go body f li s) -> exists p, path go body li p.
Proof.
  intros S go body. induction f as [|f IH]; intros li s Hb H; cbn [gloop] in H; destruct (go li) eqn:G.
  - exfalso. apply H. reflexivity.
  - exists []. apply p_stop. exact G.
  - destruct (body li) as [[li' g]|e] eqn:B.
    + destruct (IH li' (g s) Hb H) as [p Hp]. exists (li :: p). eapply p_step; eauto.
    + exists []. eapply p_fail; eauto.
  - exists []. apply p_stop. exact G.
Qed.
Lemma path_runs : forall S go (body : Z -> result (Z * (S -> S))) li p s, (forall i, ends (body i)) ->
  path go body li p -> ends (gloop go body (Datatypes.S (length p)) li s).
Proof.
  intros S go body li p s Hb H. revert s. induction H as [li G|li e G B|li li' g p G B _ IH]; intro s.
  - cbn [gloop length]. rewrite G. discriminate.
  - cbn [gloop length]. rewrite G, B. cbn [rbind]. intro E. apply (Hb li). rewrite B. exact (f_equal _ (f_equal (fun r => match r with Err e => e | Ok _ => e end) E)).
  - cbn [length]. cbn [gloop]. rewrite G, B. cbn [rbind]. apply IH.
Qed.
Lemma path_suffix : forall S go (body : Z -> result (Z * (S -> S))) li p x, path go body li p -> In x p -> NoDup p ->
  exists q, path go body x q /\ NoDup q.
Proof.
  intros S go body li p x H. induction H as [li G|li e G B|li li' g p G B Hp IH]; intros Hx Hn; [destruct Hx|destruct Hx|].
  destruct Hx as [->|Hx].
  - exists (x :: p). split; [eapply p_step; eauto|exact Hn].
  - apply IH; [exact Hx|]. inversion Hn. assumption.
Qed.
Lemma path_nodup : forall S go (body : Z -> result (Z * (S -> S))) li p, path go body li p -> exists q, path go body li q /\ NoDup q.
Proof.
  intros S go body li p H. induction H as [li G|li e G B|li li' g p G B Hp [q [Hq Hn]]].
  - exists []. split; [apply p_stop; exact G|constructor].
  - exists []. split; [eapply p_fail; eauto|constructor].
  - destruct (in_dec Z.eq_dec li q) as [Hi|Hi].
    + eapply path_suffix; eauto.
    + exists (li :: q). split; [eapply p_step; eauto|constructor; assumption].
Qed.
Lemma path_in : forall S go (body : Z -> result (Z * (S -> S))) li p, path go body li p ->
  Forall (fun i => go i = true /\ exists r, body i = Ok r) p.
Proof. intros S go body li p H. induction H; constructor; eauto. Qed.
Lemma count_range : forall (n : nat) p, NoDup p -> Forall (fun i => - Z.of_nat n <= i < Z.of_nat n)%Z p -> length p <= 2 * n.
Proof.
  intros n p Hn Hp. rewrite <- (seq_length (2 * n) 0), <- (map_length (fun k => (Z.of_nat k - Z.of_nat n)%Z)).
  apply NoDup_incl_length; [exact Hn|]. intros i Hi. rewrite Forall_forall in Hp. specialize (Hp i Hi).
  apply in_map_iff. exists (Z.to_nat (i + Z.of_nat n)). split; [lia|]. apply in_seq. lia.
Qed.

(** Twice the number of lines, plus one, decides whether the loop ends. *)
Lemma gloop_decided : forall S go (body : Z -> result (Z * (S -> S))) (n : nat) li s f m, (forall i, ends (body i)) ->
  (forall i r, go i = true -> body i = Ok r -> - Z.of_nat n <= i < Z.of_nat n)%Z -> 2 * n < m ->
  ends (gloop go body f li s) -> ends (gloop go body m li s).
Proof.
  intros S go body n li s f m Hb Hr Hm H. destruct (path_of _ _ _ _ _ _ Hb H) as [p Hp]. destruct (path_nodup _ _ _ _ _ Hp) as [q [Hq Hn]].
  assert (L : length q <= 2 * n).
  { apply count_range; [exact Hn|]. eapply Forall_impl; [|exact (path_in _ _ _ _ _ Hq)]. intros i [G [r B]]. eapply Hr; eauto. }
  assert (E := path_runs _ _ _ _ _ s Hb Hq). rewrite (gloop_more _ _ _ (Datatypes.S (length q)) m) by (lia || exact E). exact E.
Qed.

(** An index that always grows reaches the end. *)
Lemma gloop_up : forall S go (body : Z -> result (Z * (S -> S))) (n : nat) f li s, (forall i, ends (body i)) ->
  (forall i, go i = true -> i < Z.of_nat n)%Z -> (forall i i' g, 0 <= i -> go i = true -> body i = Ok (i', g) -> i < i')%Z -> (0 <= li)%Z ->
  (Z.of_nat n - li <= Z.of_nat f)%Z -> ends (gloop go body f li s).
Proof.
  intros S go body n f. induction f as [|f IH]; intros li s Hb Hg Hu Hl Hf; cbn [gloop]; destruct (go li) eqn:G; try discriminate.
  - apply Hg in G. lia.
  - assert (E := Hb li). destruct (body li) as [[li' g]|e] eqn:B.
    + cbn [rbind]. assert (U := Hu _ _ _ Hl G B). apply IH; auto; lia.
    + cbn [rbind]. intro X. apply E. injection X as ->. reflexivity.
Qed.

(* ------------------------------------------------------------------ *)
(** ** The three loops *)

Definition group_step (k : Z) (finish : dict -> list Z -> pyval) (lines : list str) (li : Z) : result (Z * (list pyval -> list pyval)) :=
  do l0 <- py_nth lines li ;;
  do g1 <- group_header l0 ;;
  do l1 <- py_nth lines (li + 1) ;;
  do g2 <- group_name_rec l1 ;;
  do n <- count_of (dupdate g1 g2) ;;
  do vs <- line_ints (py_slice (li + 2) (ceil_div n k + li + 2) lines) ;;
  Ok ((ceil_div n k + li + 2)%Z, fun acc => acc ++ [finish (dupdate g1 g2) vs]).
Definition finish2429 (g : dict) (vs : list Z) : pyval :=
  VDict (dput (dput g (KS "entity_type_code") (vints (every 0 2 vs))) (KS "entity_tag") (vints (every 1 2 vs))).
Definition finish2467 (g : dict) (vs : list Z) : pyval :=
  VDict (dupdate g [(KS "entity_type_code", vints (every 0 4 vs)); (KS "entity_tag", vints (every 1 4 vs));
                    (KS "entity_node_leaf_id", vints (every 2 4 vs)); (KS "entity_component_id", vints (every 3 4 vs))]).

Ltac step_binds := repeat match goal with |- rbind ?r _ = rbind (rbind ?r _) _ => destruct r; cbn [rbind]; [|reflexivity] end.
Lemma loop2429_g : forall f lines li acc,
  loop2429 f lines li acc = gloop (fun i => (i <? Z.of_nat (length lines) - 2)%Z) (group_step 4 finish2429 lines) f li acc.
Proof.
  induction f as [|f IH]; intros; cbn [loop2429 gloop]; destruct (li <? _)%Z; try reflexivity. unfold group_step at 1. step_binds. rewrite IH. reflexivity.
Qed.
Lemma loop2467_g : forall f lines li acc,
  loop2467 f lines li acc = gloop (fun i => (i <? Z.of_nat (length lines))%Z) (group_step 2 finish2467 lines) f li acc.
Proof.
  induction f as [|f IH]; intros; cbn [loop2467 gloop]; destruct (li <? _)%Z; try reflexivity. unfold group_step at 1. step_binds. rewrite IH. reflexivity.
Qed.
Definition elem_step (lines : list str) (li : Z) : result (Z * (st3 -> st3)) :=
  do line <- py_nth lines li ;;
  do el <- tok_int (split line) 0 ;;
  do ie <- tok_int (split line) 1 ;;
  do nn <- tok_int (split line) 2 ;;
  do nv <- tok_int (split line) 3 ;;
  do rows <- rmap float_row (py_slice (li + 1) (li + 1 + (if ie =? 1 then nn * ceil_div nv 6 else ceil_div nv 6)) lines)%Z ;;
  Ok ((li + 1 + (if ie =? 1 then nn * ceil_div nv 6 else ceil_div nv 6))%Z,
      fun s => {| s_el := s_el s ++ [el]; s_ie := s_ie s ++ [ie]; s_nn := s_nn s ++ [nn]; s_nv := s_nv s ++ [nv];
                  s_da := s_da s ++ [VList rows] |}).
Lemma loop2414_g : forall f lines li s,
  loop2414 f lines li s = gloop (fun i => (i <? Z.of_nat (length lines))%Z) (elem_step lines) f li s.
Proof.
  induction f as [|f IH]; intros; cbn [loop2414 gloop]; destruct (li <? _)%Z; try reflexivity. unfold elem_step at 1. cbv zeta. step_binds. rewrite IH. reflexivity.
Qed.

Lemma ends_line_ints : forall l, ends (line_ints l).
Proof. intros. unfold line_ints. ends_tac. Qed.
Lemma ends_count : forall d, ends (count_of d).
Proof. intros. unfold count_of. ends_tac. Qed.
#[export] Hint Resolve ends_line_ints ends_count : ends.
Lemma ends_group_step : forall k fin lines i, ends (group_step k fin lines i).
Proof. intros. unfold group_step, group_header, group_name_rec. ends_tac. Qed.
Lemma ends_elem_step : forall lines i, ends (elem_step lines i).
Proof. intros. unfold elem_step, float_row. ends_tac. Qed.

Lemma py_nth_range : forall A (l : list A) i x, py_nth l i = Ok x -> (- Z.of_nat (length l) <= i < Z.of_nat (length l))%Z.
Proof.
  intros A l i x. unfold py_nth. cbv zeta. destruct (Z.ltb_spec i 0); destruct (Z.ltb_spec (i + Z.of_nat (length l)) 0);
    destruct (Z.leb_spec (Z.of_nat (length l)) (i + Z.of_nat (length l))); destruct (Z.leb_spec (Z.of_nat (length l)) i);
    destruct (Z.ltb_spec i 0); cbn [orb]; try discriminate; lia.
Qed.
Lemma group_step_range : forall k fin lines i r, group_step k fin lines i = Ok r -> (- Z.of_nat (length lines) <= i < Z.of_nat (length lines))%Z.
Proof.
  intros k fin lines i r. unfold group_step. destruct (py_nth lines i) eqn:E; [|discriminate]. intros _. exact (py_nth_range _ _ _ _ E).
Qed.
Lemma elem_step_range : forall lines i r, elem_step lines i = Ok r -> (- Z.of_nat (length lines) <= i < Z.of_nat (length lines))%Z.
Proof.
  intros lines i r. unfold elem_step. destruct (py_nth lines i) eqn:E; [|discriminate]. intros _. exact (py_nth_range _ _ _ _ E).
Qed.

(* ------------------------------------------------------------------ *)
(** ** Splitting the rest of a text again *)

Lemma splitlines_head : forall lb s l ls, splitlines lb true s = l :: ls -> exists s', s = l ++ s' /\ ls = splitlines lb true s'.
Proof.
  intros lb. assert (G : forall n s l ls, length s <= n -> splitlines lb true s = l :: ls -> exists s', s = l ++ s' /\ ls = splitlines lb true s').
  { induction n as [|n IH]; intros [|c r] l ls Hn H; try discriminate; cbn [length] in Hn; [lia|]. cbn [splitlines] in H. destruct (lb c).
    - destruct r as [|c' r']; [injection H as <- <-; exists []; split; reflexivity|].
      destruct ((c =? 13) && (c' =? 10))%N; injection H as <- <-; [exists r'|exists (c' :: r')]; split; reflexivity.
    - destruct (splitlines lb true r) as [|l0 ls0] eqn:E.
      + injection H as <- <-. exists r. destruct r as [|c' r']; [split; reflexivity|]. exfalso. cbn [splitlines] in E.
        destruct (lb c'); [destruct r'; [discriminate|]; destruct ((c' =? 13) && _)%N; discriminate|]. destruct (splitlines lb true r'); discriminate.
      + injection H as <- <-. destruct (IH r l0 ls0 ltac:(lia) E) as [s' [-> ->]]. exists s'. split; reflexivity. }
  intros s l ls H. exact (G (length s) s l ls (Nat.le_refl _) H).
Qed.
Lemma splitlines_rest : forall lb k s, exists s', join (skipn k (splitlines lb true s)) = s' /\ skipn k (splitlines lb true s) = splitlines lb true s'.
Proof.
  intros lb.
  assert (J : forall n s, length (splitlines lb true s) <= n -> join (splitlines lb true s) = s).
  { induction n as [|n IH]; intros s Hn; destruct (splitlines lb true s) as [|l ls] eqn:E; try (cbn in Hn; lia).
    - destruct s as [|c r]; [reflexivity|]. exfalso. cbn [splitlines] in E.
      destruct (lb c); [destruct r; [discriminate|]; destruct ((c =? 13) && _)%N; discriminate|]. destruct (splitlines lb true r); discriminate.
    - destruct s as [|c r]; [reflexivity|]. exfalso. cbn [splitlines] in E.
      destruct (lb c); [destruct r; [discriminate|]; destruct ((c =? 13) && _)%N; discriminate|]. destruct (splitlines lb true r); discriminate.
    - destruct (splitlines_head _ _ _ _ E) as [s' [-> ->]]. unfold join in *. cbn [concat]. rewrite IH by (cbn [length] in Hn; lia). reflexivity. }
  induction k as [|k IH]; intro s.
  - exists s. split; [apply (J (length (splitlines lb true s))); lia|reflexivity].
  - destruct (splitlines lb true s) as [|l ls] eqn:E; [exists []; split; reflexivity|].
    destruct (splitlines_head _ _ _ _ E) as [s' [_ ->]]. cbn [skipn]. apply IH.
Qed.
Lemma splitlines_count : forall lb s, length (splitlines lb false s) = length (splitlines lb true s).
Proof.
  intros lb. assert (G : forall n s, length s <= n -> length (splitlines lb false s) = length (splitlines lb true s)).
  { induction n as [|n IH]; intros [|c r] Hn; try reflexivity; cbn [length] in Hn; [lia|]. cbn [splitlines]. destruct (lb c).
    - destruct r as [|c' r']; [reflexivity|]. cbn [length] in Hn. destruct ((c =? 13) && (c' =? 10))%N; cbn [length]; rewrite IH by (cbn [length]; lia); reflexivity.
    - assert (H := IH r ltac:(lia)). destruct (splitlines lb false r), (splitlines lb true r); cbn [length] in *; congruence. }
  intros s. apply (G (length s)). lia.
Qed.
Lemma rest_lines : forall k s, length (splitlines_str false (join (skipn k (splitlines_str true s)))) <= length (splitlines_str true s).
Proof.
  intros k s. unfold splitlines_str. destruct (splitlines_rest is_lb_str k s) as [s' [-> E]]. rewrite splitlines_count, <- E, skipn_length. lia.
Qed.
