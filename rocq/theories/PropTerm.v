(** C53: reading ends.  Loops that may not end have fuel in the model; a reader
    whose loop does not end is [Err OutOfFuel] with any amount of fuel. *)
From Coq Require Import String List NArith ZArith Bool Lia.
Import ListNotations.
From Verif Require Import PyBase PyNum PyVal Utf8 Tools DsNodes DsHeaders DsGroups Ds55 Ds58 Ds2414 Uff Facts Scan DictFacts Container Append Lines Stored Term Witness.
From Coq Require Import Lia.
Open Scope string_scope.
Open Scope list_scope.
Open Scope nat_scope.

(* ------------------------------------------------------------------ *)
(** ** The twelve readers without an index loop *)

Theorem C53_others : forall ty block ho, ty <> 2414%Z -> ty <> 2429%Z -> ty <> 2467%Z -> extract_set ty block ho <> Err OutOfFuel.
Proof.
  intros ty block ho H1 H2 H3. change (ends (extract_set ty block ho)). unfold extract_set. cbv zeta.
  repeat match goal with
  | |- ends (if (ty =? ?n)%Z then _ else _) => destruct (Z.eqb_spec ty n); [first [contradiction|apply ends15|apply ends18|apply ends55|apply ends58|apply ends82|apply ends151|apply ends164|apply ends1858|apply ends2400|apply ends2411|apply ends2412|apply ends2420]|]
  end. discriminate.
Qed.
Print Assumptions C53_others.

(* ------------------------------------------------------------------ *)
(** ** Reading a whole file *)

Definition looping (ty : Z) : bool := existsb (Z.eqb ty) [2414; 2429; 2467]%Z.
Lemma ends_sync : forall file u, ends (sync file u).
Proof.
  intros [data|] u; unfold sync; destruct (refreshed u); try discriminate. unfold refresh. rewrite block_inds_tags. cbn [rbind].
  destruct (pairs (tags data)); discriminate.
Qed.
Lemma sync_refreshed : forall file u u', sync (Some file) u = Ok u' -> refreshed u' = true.
Proof.
  intros file u u'. unfold sync. destruct (refreshed u) eqn:E; [intro H; injection H as <-; exact E|]. unfold refresh. rewrite block_inds_tags.
  cbn [rbind]. destruct (pairs (tags file)); cbn [rbind]; intro H; injection H as <-; reflexivity.
Qed.
Lemma sync_again : forall file u, refreshed u = true -> sync file u = Ok u.
Proof. intros file u H. unfold sync. rewrite H. reflexivity. Qed.
Lemma ends_read_set : forall data u n ho, refreshed u = true -> (forall ty, In ty (set_types u) -> looping ty = false) ->
  ends (read_set (Some data) u n ho) /\ forall u' d, read_set (Some data) u n ho = Ok (u', d) -> u' = u.
Proof.
  intros data u n ho Hr Hty. unfold read_set. rewrite sync_again by exact Hr. cbn [rbind].
  destruct ((_ <? n)%Z || _); [split; discriminate|]. destruct (nth_error (block_ind u) (Z.to_nat n)) as [p|]; [|split; discriminate].
  cbn [of_option rbind]. destruct (nth_error (set_types u) (Z.to_nat n)) as [ty|] eqn:T; [|split; discriminate]. cbn [of_option rbind].
  apply nth_error_In, Hty in T. unfold looping in T. cbn [existsb] in T. apply orb_false_iff in T as [T1 T]. apply orb_false_iff in T as [T2 T].
  apply orb_false_iff in T as [T3 _]. apply Z.eqb_neq in T1, T2, T3.
  assert (E := C53_others ty (extract_block data p) ho T1 T2 T3). destruct (extract_set ty (extract_block data p) ho) as [d|e].
  - split; [discriminate|]. intros u' d' H. injection H as <- <-. reflexivity.
  - split; [|discriminate]. cbn [rbind]. intro X. apply E. injection X as ->. reflexivity.
Qed.
Lemma ends_read_all : forall data u l ho, refreshed u = true -> (forall ty, In ty (set_types u) -> looping ty = false) ->
  ends (read_all (Some data) u l ho).
Proof.
  intros data u l ho Hr Hty. induction l as [|n l IH]; [discriminate|]. cbn [read_all]. destruct (ends_read_set data u n ho Hr Hty) as [H1 H2].
  apply ends_bind; [exact H1|]. intros [u' d] E. apply H2 in E. subst u'. apply ends_bind; [exact IH|]. intros [? ?] _. discriminate.
Qed.

(** Reading any sets of any file ends if no block is typed 2414, 2429 or 2467. *)
Theorem C53_read : forall data u u' sel ho, sync (Some data) u = Ok u' -> (forall ty, In ty (set_types u') -> looping ty = false) ->
  read_sets (Some data) u sel ho <> Err OutOfFuel.
Proof.
  intros data u u' sel ho Hs Hty. unfold read_sets. cbv zeta. rewrite Hs. cbn [rbind]. apply sync_refreshed in Hs.
  apply ends_bind; [apply ends_try; [discriminate|apply ends_read_all; assumption]|]. intros [? ?] _. discriminate.
Qed.
Print Assumptions C53_read.
Definition dl : bytes := lit "    -1" ++ [LF].
Example C53_read_example : exists u', sync (Some (dl ++ lit "    15" ++ [LF; LF] ++ dl ++ dl ++ lit "  2412" ++ [LF] ++ dl)) uff0 = Ok u' /\
  set_types u' = [15; 2412]%Z /\ forall ty, In ty (set_types u') -> looping ty = false.
Proof.
  eexists. split; [vm_compute; reflexivity|]. split; [reflexivity|]. cbn [set_types]. intros ty [<-|[<-|[]]]; reflexivity.
Qed.

(* ------------------------------------------------------------------ *)
(** ** 2429, 2467, 2414: the model's fuel decides whether the loop ends *)

Lemma try_oof : forall A (r : result A) e, e <> OutOfFuel -> (try_any r e = Err OutOfFuel <-> r = Err OutOfFuel).
Proof. intros A [a|[]] e He; cbn; split; intro H; congruence. Qed.
Lemma bind_oof : forall A B (r : result A) (k : A -> result B), (forall a, ends (k a)) -> (rbind r k = Err OutOfFuel <-> r = Err OutOfFuel).
Proof. intros A B [a|e] k H; cbn; split; intro E; try discriminate; [destruct (H a E)| |]; congruence. Qed.

(** [decides fuelled m]: with [m] iterations the outcome is final. *)
Definition decides {A} (fuelled : nat -> result A) (m : nat) : Prop :=
  (fuelled m = Err OutOfFuel <-> forall f, fuelled f = Err OutOfFuel) /\
  (fuelled m <> Err OutOfFuel -> forall f, m <= f -> fuelled f = fuelled m).
Lemma decides_gloop : forall S go (body : Z -> result (Z * (S -> S))) (n : nat) li s m, (forall i, ends (body i)) ->
  (forall i r, go i = true -> body i = Ok r -> - Z.of_nat n <= i < Z.of_nat n)%Z -> 2 * n < m -> decides (fun f => gloop go body f li s) m.
Proof.
  intros S go body n li s m Hb Hr Hm. split.
  - split; [|auto]. intros E f. destruct (gloop go body f li s) as [x|e] eqn:G; [|destruct e; try reflexivity];
      exfalso; refine (gloop_decided _ _ _ n li s f m Hb Hr Hm _ E); rewrite G; discriminate.
  - intros H f Hf. apply gloop_more; assumption.
Qed.
Lemma decides_ext : forall A (f g : nat -> result A) m, (forall k, f k = g k) -> decides f m -> decides g m.
Proof. intros A f g m H [H1 H2]. unfold decides. split; [|intros E k Hk; rewrite <- !H; apply H2; [rewrite H; exact E|exact Hk]]. rewrite <- H, H1. split; intros E k; [rewrite <- H|rewrite H]; apply E. Qed.
Lemma decides_bind : forall A B (f : nat -> result A) (k : A -> result B) m, (forall a, ends (k a)) -> decides f m -> decides (fun n => rbind (f n) k) m.
Proof.
  intros A B f k m Hk [H1 H2]. split.
  - rewrite bind_oof by exact Hk. rewrite H1. split; intros E n; [apply bind_oof; auto|]. apply (bind_oof _ _ _ k Hk), E.
  - intros E n Hn. rewrite H2; auto. intro X. apply E. apply bind_oof; assumption.
Qed.
Lemma decides_try : forall A (f : nat -> result A) e m, e <> OutOfFuel -> decides f m -> decides (fun n => try_any (f n) e) m.
Proof.
  intros A f e m He [H1 H2]. split.
  - rewrite try_oof by exact He. rewrite H1. split; intros E n; [apply try_oof; auto|]. apply (try_oof _ _ e He), E.
  - intros E n Hn. rewrite H2; auto. intro X. apply E. apply try_oof; assumption.
Qed.
Lemma decides_const : forall A (r : result A) m, ends r -> decides (fun _ => r) m.
Proof. intros A r m H. split; [|reflexivity]. split; [intro E; destruct (H E)|intro E; exact (E 0)]. Qed.

Theorem C53_decided_2429 : forall block, decides (fun f => extract2429_fuel f block) (2 * length (splitlines_str false block) + 2).
Proof.
  intro block. unfold extract2429_fuel. cbv zeta. apply decides_try; [discriminate|]. apply decides_bind; [discriminate|].
  eapply decides_ext; [intro; symmetry; apply loop2429_g|]. eapply decides_gloop with (n := length (splitlines_str false block)).
  - intro. apply ends_group_step.
  - intros i r _ H. eapply group_step_range. exact H.
  - lia.
Qed.
Print Assumptions C53_decided_2429.
Theorem C53_decided_2467 : forall block, decides (fun f => extract2467_fuel f block) (2 * length (splitlines_str true block) + 2).
Proof.
  intro block. unfold extract2467_fuel. cbv zeta. apply decides_bind; [discriminate|].
  eapply decides_ext; [intro; symmetry; apply loop2467_g|]. eapply decides_gloop with (n := length (skipn 2 (splitlines_str true block))).
  - intro. apply ends_group_step.
  - intros i r _ H. eapply group_step_range. exact H.
  - rewrite skipn_length. lia.
Qed.
Print Assumptions C53_decided_2467.
Theorem C53_decided_2414 : forall block, decides (fun f => extract2414_fuel f block) (2 * length (splitlines_str true block) + 2).
Proof.
  intro block. unfold extract2414_fuel. cbv zeta. apply decides_try; [discriminate|].
  set (lines := splitlines_str true block). set (m := 2 * length lines + 2).
  assert (E1 := ends_header_recs recs2414_head (firstn 15 lines) [(KS "type", VInt 2414)]).
  destruct (header_recs _ _ recs2414_head) as [d|e]; cbn [rbind]; [|apply decides_const; intro X; apply E1; congruence].
  assert (E2 := ends_ix d "analysis_type"). destruct (ix d "analysis_type") as [v|e]; cbn [rbind]; [|apply decides_const; intro X; apply E2; congruence].
  destruct (py_eqZ v 5).
  { apply decides_const. unfold freq_data, np_trunc. ends_tac. }
  assert (E3 := ends_header_recs recs2414_n (firstn 15 lines) d).
  destruct (header_recs _ d recs2414_n) as [d'|e]; cbn [rbind]; [|apply decides_const; intro X; apply E3; congruence].
  assert (L := rest_lines 15 block). fold lines in L. revert L. generalize (splitlines_str false (join (skipn 15 lines))). intros rest L.
  unfold loc_data. assert (E4 := ends_ix d' "dataset_location").
  destruct (ix d' "dataset_location") as [loc|e]; cbn [rbind]; [|apply decides_const; intro X; apply E4; congruence].
  destruct (py_eqZ loc 1); [apply decides_const; unfold float_row, str_column; ends_tac|].
  destruct (py_eqZ loc 2); [apply decides_const; unfold float_row, str_column; ends_tac|].
  destruct (py_eqZ loc 3); [|apply decides_const; discriminate].
  apply decides_bind; [intro; ends_tac|].
  eapply decides_ext; [intro; symmetry; apply loop2414_g|]. eapply decides_gloop with (n := length rest).
  - intro. apply ends_elem_step.
  - intros i r _ H. eapply elem_step_range. exact H.
  - unfold m. lia.
Qed.
Print Assumptions C53_decided_2414.

(** The default fuel is the one of the theorems. *)
Theorem C53_default : forall block,
  extract2429 block = extract2429_fuel (2 * length (splitlines_str false block) + 2) block /\
  extract2467 block = extract2467_fuel (2 * length (splitlines_str true block) + 2) block /\
  extract2414 block = extract2414_fuel (2 * length (splitlines_str true block) + 2) block.
Proof. intro. repeat split. Qed.
Print Assumptions C53_default.

(* ------------------------------------------------------------------ *)
(** ** With counts that are not negative the loops end *)

(** Columns 71-80 of a line, blanks added on the right. *)
Definition count_field (l : str) : str := strip (firstn 10 (skipn 70 (l ++ repeat blank 80))).
Lemma extend80_field : forall l, firstn 10 (skipn 70 (extend80 l)) = firstn 10 (skipn 70 (l ++ repeat blank 80)).
Proof.
  intro l. unfold extend80. destruct (Nat.ltb_spec (length l) 80) as [H|H].
  - replace (repeat blank 80) with (repeat blank (80 - length l) ++ repeat blank (length l)) by (rewrite <- repeat_app; f_equal; lia).
    rewrite app_assoc. set (x := l ++ repeat blank (80 - length l)). rewrite (skipn_app 70 x). rewrite (firstn_app 10 (skipn 70 x)).
    assert (Hx : length x = 80) by (unfold x; rewrite app_length, repeat_length; lia). rewrite skipn_length, Hx.
    replace (10 - (80 - 70)) with 0 by reflexivity. cbn [firstn]. rewrite app_nil_r. reflexivity.
  - rewrite skipn_app, firstn_app, skipn_length. replace (10 - (length l - 70)) with 0 by lia. cbn [firstn]. rewrite app_nil_r. reflexivity.
Qed.
Lemma group_count : forall l g1 l1 g2 n, group_header l = Ok g1 -> group_name_rec l1 = Ok g2 -> count_of (dupdate g1 g2) = Ok n -> py_int (count_field l) = Ok n.
Proof.
  intros l g1 l1 g2 n H1 H2. unfold count_field. rewrite <- extend80_field.
  replace (skipn 70 (extend80 l)) with (skipn 10 (skipn 10 (skipn 10 (skipn 10 (skipn 10 (skipn 10 (skipn 10 (extend80 l)))))))) by (rewrite !skipn_skipn_add; reflexivity).
  revert H1. unfold group_header, parse_header_line. cbv zeta. generalize (extend80 l). intro s. revert H2. unfold group_name_rec, parse_header_line.
  generalize (extend80 l1). intros s1 H2.
  assert (exists nm, g2 = [(KS "group_name", VStr nm)]) as [nm ->].
  { cbn in H2. injection H2 as <-. eexists. reflexivity. }
  clear H2. cbn [cut_fields].
  generalize (strip (firstn 10 s)). generalize (strip (firstn 10 (skipn 10 s))).
  generalize (strip (firstn 10 (skipn 10 (skipn 10 s)))). generalize (strip (firstn 10 (skipn 10 (skipn 10 (skipn 10 s))))).
  generalize (strip (firstn 10 (skipn 10 (skipn 10 (skipn 10 (skipn 10 s)))))).
  generalize (strip (firstn 10 (skipn 10 (skipn 10 (skipn 10 (skipn 10 (skipn 10 s))))))).
  generalize (strip (firstn 10 (skipn 10 (skipn 10 (skipn 10 (skipn 10 (skipn 10 (skipn 10 s)))))))).
  generalize (strip (firstn 10 (skipn 10 (skipn 10 (skipn 10 (skipn 10 (skipn 10 (skipn 10 (skipn 10 s))))))))).
  intros a7 a6 a5 a4 a3 a2 a1 a0.
  cbn [length Nat.ltb Nat.leb orb set_keys app combine firstn skipn mandatory optional].
  assert (F : forall x, field_val 2 x = (do z <- py_int x ;; Ok (Some (VInt z)))) by reflexivity. rewrite !F.
  destruct (py_int a0); cbn [rbind]; [|discriminate]. destruct (py_int a1); cbn [rbind]; [|discriminate].
  destruct (py_int a2); cbn [rbind]; [|discriminate]. destruct (py_int a3); cbn [rbind]; [|discriminate].
  destruct (py_int a4); cbn [rbind]; [|discriminate]. destruct (py_int a5); cbn [rbind]; [|discriminate].
  destruct (py_int a6); cbn [rbind]; [|discriminate]. destruct (py_int a7) as [z7|]; cbn [rbind]; [|discriminate].
  intro H1. injection H1 as <-. intro H. vm_compute in H. injection H as <-. reflexivity.
Qed.
Lemma ceil_nonneg : forall n k, (0 <= n -> 0 < k -> 0 <= ceil_div n k)%Z.
Proof. intros n k Hn Hk. unfold ceil_div. assert (- n / k <= 0)%Z; [|lia]. apply Z.div_le_upper_bound; lia. Qed.
Lemma group_step_up : forall k fin lines i i' g, (0 < k)%Z -> (forall l n, In l lines -> py_int (count_field l) = Ok n -> (0 <= n)%Z) ->
  group_step k fin lines i = Ok (i', g) -> (i < i')%Z.
Proof.
  intros k fin lines i i' g Hk Hc. unfold group_step. destruct (py_nth lines i) as [l0|] eqn:E0; [|discriminate]. cbn [rbind].
  destruct (group_header l0) as [g1|] eqn:E1; [|discriminate]. cbn [rbind]. destruct (py_nth lines (i + 1)) as [l1|]; [|discriminate]. cbn [rbind].
  destruct (group_name_rec l1) as [g2|] eqn:E2; [|discriminate]. cbn [rbind]. destruct (count_of (dupdate g1 g2)) as [n|] eqn:E3; [|discriminate]. cbn [rbind].
  destruct (line_ints _); [|discriminate]. cbn [rbind]. intro H. injection H as <- _.
  assert (In l0 lines) as I0.
  { revert E0. unfold py_nth. cbv zeta. destruct (_ || _)%Z; [discriminate|].
    match goal with |- context [nth_error lines ?x] => destruct (nth_error lines x) eqn:N; [|discriminate]; apply nth_error_In in N end.
    intro H. injection H as <-. exact N. }
  assert (G := ceil_nonneg n k (Hc l0 n I0 (group_count _ _ _ _ _ E1 E2 E3)) Hk). lia.
Qed.

(** No line with a negative number in columns 71-80. *)
Definition no_negative_count (lines : list str) : Prop :=
  forall l n, In l lines -> py_int (count_field l) = Ok n -> (0 <= n)%Z.
Theorem C53_counts_2429 : forall block, no_negative_count (splitlines_str false block) -> extract2429 block <> Err OutOfFuel.
Proof.
  intros block Hc. unfold extract2429, extract2429_fuel. cbv zeta. apply ends_try; [discriminate|]. apply ends_bind; [|discriminate].
  rewrite loop2429_g. eapply gloop_up with (n := length (splitlines_str false block)).
  - intro. apply ends_group_step.
  - intros i H. apply Z.ltb_lt in H. unfold str in *; lia.
  - intros i i' g _ _ H. refine (group_step_up _ _ _ _ _ _ _ Hc H). reflexivity.
  - lia.
  - lia.
Qed.
Print Assumptions C53_counts_2429.
Theorem C53_counts_2467 : forall block, no_negative_count (splitlines_str true block) -> extract2467 block <> Err OutOfFuel.
Proof.
  intros block Hc. unfold extract2467, extract2467_fuel. cbv zeta. apply ends_bind; [|discriminate].
  rewrite loop2467_g. eapply gloop_up with (n := length (skipn 2 (splitlines_str true block))).
  - intro. apply ends_group_step.
  - intros i H. apply Z.ltb_lt in H. exact H.
  - intros i i' g _ _ H. refine (group_step_up _ _ _ _ _ _ _ _ H); [reflexivity|]. intros l n Hl. apply Hc.
    rewrite <- (firstn_skipn 2). apply in_or_app. right. exact Hl.
  - lia.
  - rewrite skipn_length. lia.
Qed.
Print Assumptions C53_counts_2467.

(** No line whose third or fourth word is a negative number. *)
Definition no_negative_sizes (lines : list str) : Prop :=
  forall l n, In l lines -> (tok_int (split l) 2 = Ok n \/ tok_int (split l) 3 = Ok n) -> (0 <= n)%Z.
Lemma elem_step_up : forall lines i i' g, no_negative_sizes lines -> elem_step lines i = Ok (i', g) -> (i < i')%Z.
Proof.
  intros lines i i' g Hc. unfold elem_step. destruct (py_nth lines i) as [l0|] eqn:E0; [|discriminate]. cbn [rbind].
  destruct (tok_int (split l0) 0); [|discriminate]. cbn [rbind]. destruct (tok_int (split l0) 1) as [ie|]; [|discriminate]. cbn [rbind].
  destruct (tok_int (split l0) 2) as [nn|] eqn:E2; [|discriminate]. cbn [rbind]. destruct (tok_int (split l0) 3) as [nv|] eqn:E3; [|discriminate]. cbn [rbind].
  destruct (rmap float_row _); [|discriminate]. cbn [rbind]. intro H. injection H as <- _.
  assert (In l0 lines) as I0.
  { revert E0. unfold py_nth. cbv zeta. destruct (_ || _)%Z; [discriminate|].
    match goal with |- context [nth_error lines ?x] => destruct (nth_error lines x) eqn:N; [|discriminate]; apply nth_error_In in N end.
    intro H. injection H as <-. exact N. }
  assert (0 <= nn)%Z by (apply (Hc l0 nn I0); auto). assert (0 <= nv)%Z by (apply (Hc l0 nv I0); auto).
  assert (G := ceil_nonneg nv 6 ltac:(assumption) ltac:(lia)). assert (0 <= nn * ceil_div nv 6)%Z by nia. destruct (ie =? 1)%Z; lia.
Qed.
Theorem C53_counts_2414 : forall block, no_negative_sizes (splitlines_str false (join (skipn 15 (splitlines_str true block)))) -> extract2414 block <> Err OutOfFuel.
Proof.
  intros block Hc. unfold extract2414, extract2414_fuel. cbv zeta. apply ends_try; [discriminate|].
  assert (L := rest_lines 15 block). revert Hc L. generalize (splitlines_str false (join (skipn 15 (splitlines_str true block)))). intros rest Hc L.
  apply ends_bind; [apply ends_header_recs|]. intros d _. apply ends_bind; [apply ends_ix|]. intros v _. destruct (py_eqZ v 5).
  { unfold freq_data, np_trunc. ends_tac. }
  apply ends_bind; [apply ends_header_recs|]. intros d' _. unfold loc_data. apply ends_bind; [apply ends_ix|]. intros loc _.
  destruct (py_eqZ loc 1); [unfold float_row, str_column; ends_tac|].
  destruct (py_eqZ loc 2); [unfold float_row, str_column; ends_tac|].
  destruct (py_eqZ loc 3); [|discriminate].
  apply ends_bind; [|intros; ends_tac]. rewrite loop2414_g. eapply gloop_up with (n := length rest).
  - intro. apply ends_elem_step.
  - intros i H. apply Z.ltb_lt in H. exact H.
  - intros i i' g _ _ H. eapply elem_step_up; eassumption.
  - lia.
  - lia.
Qed.
Print Assumptions C53_counts_2414.

(* ------------------------------------------------------------------ *)
(** ** Refutation: a negative count keeps the reader at the same line for ever *)

Definition nl (s : string) : str := lit s ++ [LF].
Definition bad_group (ty : string) (count : string) : bytes :=
  dl ++ nl ty ++ nl ("         1         0         0         0         0         0         0" ++ count)%string ++ nl "NAME"
  ++ nl "         8         1         0         0" ++ nl "" ++ nl "".
Definition bad_elem : bytes :=
  dl ++ nl "  2414" ++ nl "         1" ++ nl "NAME" ++ nl "         3" ++ nl "A" ++ nl "B" ++ nl "C" ++ nl "D" ++ nl "E"
  ++ nl "         1         1         3         8         2         6" ++ nl "         0" ++ nl "         0" ++ nl "  0.0" ++ nl "  0.0"
  ++ nl "         7         1         1        -6".
(** The counts -8, -4 and -6: each is read as "two lines back" or "one line back". *)
Theorem C53_refuted_2429 : forall f, extract2429_fuel f (bad_group "  2429" "        -8") = Err OutOfFuel.
Proof. apply C53_decided_2429. vm_compute. reflexivity. Qed.
Theorem C53_refuted_2467 : forall f, extract2467_fuel f (bad_group "  2467" "        -4") = Err OutOfFuel.
Proof. apply C53_decided_2467. vm_compute. reflexivity. Qed.
Theorem C53_refuted_2414 : forall f, extract2414_fuel f bad_elem = Err OutOfFuel.
Proof. apply C53_decided_2414. vm_compute. reflexivity. Qed.
(** At the level of files. *)
Theorem C53_read_refuted : exists f u, uff_new (Some f) = Ok u /\ get_set_types (Some f) u = Ok (u, [2429; 2467; 2414]%Z) /\
  read_sets (Some f) u (SelOne 0) false = Err OutOfFuel /\ read_sets (Some f) u (SelOne 1) false = Err OutOfFuel /\
  read_sets (Some f) u (SelOne 2) false = Err OutOfFuel.
Proof.
  exists (bad_group "  2429" "        -8" ++ dl ++ bad_group "  2467" "        -4" ++ dl ++ bad_elem ++ dl). eexists.
  split; [vm_compute; reflexivity|]. split; [vm_compute; reflexivity|]. split; [vm_compute; reflexivity|]. split; vm_compute; reflexivity.
Qed.
Print Assumptions C53_read_refuted.

(** The guards hold for the blocks that the writers produce. *)
Lemma no_negative_check : forall lines, forallb (fun l => match py_int (count_field l) with Ok n => (0 <=? n)%Z | Err _ => true end) lines = true -> no_negative_count lines.
Proof. intros lines H l n Hl E. rewrite forallb_forall in H. specialize (H l Hl). rewrite E in H. apply Z.leb_le. exact H. Qed.
Example C53_counts_example : no_negative_count (splitlines_str false (bad_group "  2429" "         1")) /\
  no_negative_count (splitlines_str true (bad_group "  2467" "         1")) /\
  exists d, extract2467 (dl ++ nl "  2467" ++ nl "         1         0         0         0         0         0         0         2" ++ nl "NAME"
    ++ nl "         8         1         0         0         8         2         0         0") = Ok d.
Proof.
  split; [apply no_negative_check; vm_compute; reflexivity|]. split; [apply no_negative_check; vm_compute; reflexivity|].
  eexists. vm_compute. reflexivity.
Qed.
Lemma no_negative_check2 : forall lines, forallb (fun l => match tok_int (split l) 2 with Ok n => (0 <=? n)%Z | Err _ => true end &&
  match tok_int (split l) 3 with Ok n => (0 <=? n)%Z | Err _ => true end) lines = true -> no_negative_sizes lines.
Proof.
  intros lines H l n Hl E. rewrite forallb_forall in H. specialize (H l Hl). apply andb_true_iff in H as [H1 H2].
  destruct E as [E|E]; [rewrite E in H1; apply Z.leb_le; exact H1|rewrite E in H2; apply Z.leb_le; exact H2].
Qed.
Example C53_sizes_example : exists b d, no_negative_sizes (splitlines_str false (join (skipn 15 (splitlines_str true b)))) /\ extract2414 b = Ok d /\
  exists v, dget d (KS "data_at_nodes_on_element") = Some v.
Proof.
  exists (firstn (length bad_elem - 41) bad_elem ++ nl "         7         2         4         2" ++ nl "  1.0  2.0"). eexists.
  split; [apply no_negative_check2; vm_compute; reflexivity|]. split; [vm_compute; reflexivity|]. eexists. vm_compute. reflexivity.
Qed.
