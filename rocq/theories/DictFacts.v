(** Dictionaries, default filling, header lines. *)
From Verif Require Import PyBase PyNum PyVal Utf8 Tools Facts.
From Coq Require Import Lia.
Open Scope nat_scope.

Lemma key_eqb_spec : forall a b, reflect (a = b) (key_eqb a b).
Proof.
  intros [s|x] [t|y]; cbn [key_eqb]; try (constructor; discriminate).
  - destruct (String.eqb_spec s t); constructor; congruence.
  - destruct (Z.eqb_spec x y); constructor; congruence.
Qed.
Lemma key_eqb_refl : forall k, key_eqb k k = true.
Proof. intro k. destruct (key_eqb_spec k k); congruence. Qed.
Lemma key_eqb_sym : forall a b, key_eqb a b = key_eqb b a.
Proof. intros a b. destruct (key_eqb_spec a b), (key_eqb_spec b a); congruence. Qed.

Lemma dget_dput : forall d k v k', dget (dput d k v) k' = if key_eqb k' k then Some v else dget d k'.
Proof.
  induction d as [|[k0 v0] d IH]; intros k v k'; cbn [dput dget].
  - reflexivity.
  - destruct (key_eqb_spec k k0) as [->|Hne]; cbn [dget].
    + destruct (key_eqb_spec k' k0); reflexivity.
    + rewrite IH. destruct (key_eqb_spec k' k0), (key_eqb_spec k' k); try congruence; reflexivity.
Qed.
Lemma dput_fresh : forall d k v, dget d k = None -> dput d k v = d ++ [(k, v)].
Proof.
  induction d as [|[k0 v0] d IH]; intros k v H; cbn [dput dget] in *; [reflexivity|].
  destruct (key_eqb k k0); [discriminate|]. rewrite IH by assumption. reflexivity.
Qed.
Lemma dget_app : forall d e k, dget (d ++ e) k = match dget d k with Some v => Some v | None => dget e k end.
Proof.
  induction d as [|[k0 v0] d IH]; intros e k; cbn [app dget]; [reflexivity|]. destruct (key_eqb k k0); auto.
Qed.
Lemma dget_None : forall d k, dget d k = None <-> ~ In k (map fst d).
Proof.
  induction d as [|[k0 v0] d IH]; intro k; cbn [dget map fst In]; [tauto|].
  destruct (key_eqb_spec k k0) as [->|Hne].
  - split; [discriminate|]. intro H. exfalso. apply H. auto.
  - rewrite IH. split; intros H H1; apply H; [destruct H1; [congruence|assumption]|auto].
Qed.
Lemma dmem_dget : forall d k, dmem d k = true <-> dget d k <> None.
Proof. intros d k. unfold dmem. destruct (dget d k); split; congruence. Qed.

(* ------------------------------------------------------------------ *)
(** ** Default filling *)
Fixpoint missing (d defs : dict) : dict :=
  match defs with
  | [] => []
  | (k, v) :: r => if dmem d k then missing d r else (k, v) :: missing (d ++ [(k, v)]) r
  end.
Lemma opt_fields_app : forall defs d, opt_fields d defs = d ++ missing d defs.
Proof.
  induction defs as [|[k v] r IH]; intro d; cbn [opt_fields missing].
  - symmetry. apply app_nil_r.
  - unfold dmem. destruct (dget d k) as [w|] eqn:E.
    + rewrite IH. reflexivity.
    + rewrite dput_fresh by assumption. rewrite IH. rewrite <- app_assoc. reflexivity.
Qed.
Lemma opt_fields_get : forall defs d k,
  dget (opt_fields d defs) k = match dget d k with Some v => Some v | None => dget defs k end.
Proof.
  induction defs as [|[k0 v0] r IH]; intros d k; cbn [opt_fields dget].
  - destruct (dget d k); reflexivity.
  - rewrite IH. unfold dmem. destruct (dget d k0) as [w|] eqn:E.
    + destruct (dget d k) eqn:E2; [reflexivity|]. destruct (key_eqb_spec k k0); [congruence|reflexivity].
    + rewrite dget_dput. destruct (key_eqb_spec k k0) as [->|]; [rewrite E; reflexivity|]. reflexivity.
Qed.
Lemma missing_incl : forall defs d kv, In kv (missing d defs) -> In kv defs /\ dget d (fst kv) = None.
Proof.
  induction defs as [|[k v] r IH]; intros d kv H; cbn [missing] in H; [destruct H|].
  unfold dmem in H. destruct (dget d k) eqn:E.
  - destruct (IH _ _ H). split; [right; assumption|assumption].
  - destruct H as [<-|H].
    + split; [left; reflexivity|assumption].
    + destruct (IH _ _ H) as [H1 H2]. rewrite dget_app in H2. destruct (dget d (fst kv)) eqn:E2; [discriminate|].
      split; [right; assumption|reflexivity].
Qed.
Lemma missing_none : forall defs d, (forall k, In k (map fst defs) -> dget d k <> None) -> missing d defs = [].
Proof.
  induction defs as [|[k v] r IH]; intros d H; cbn [missing]; [reflexivity|].
  assert (Hk : dget d k <> None) by (apply H; left; reflexivity). apply dmem_dget in Hk. rewrite Hk.
  apply IH. intros k' Hk'. apply H. right. assumption.
Qed.
Lemma dget_In_keys : forall d k, In k (map fst d) -> dget d k <> None.
Proof. intros d k H E. apply dget_None in E. contradiction. Qed.

(* ------------------------------------------------------------------ *)
(** ** Header lines *)
Fixpoint sum (l : list nat) : nat := match l with [] => 0 | x :: r => x + sum r end.

Lemma strip_blanks_tail : forall a n, strip (a ++ repeat blank n) = strip a.
Proof. intros. unfold strip. apply strip_by_post, blanks_ws. Qed.

Lemma firstn_repeat : forall A (x : A) n k, firstn n (repeat x k) = repeat x (Nat.min n k).
Proof. induction n as [|n IH]; intros [|k]; simpl; auto. rewrite IH. reflexivity. Qed.
Lemma skipn_repeat : forall A (x : A) n k, skipn n (repeat x k) = repeat x (k - n).
Proof. induction n as [|n IH]; intros [|k]; simpl; auto. Qed.

Lemma cut_fields_nth : forall widths line n i w, nth_error widths i = Some w ->
  nth_error (cut_fields (line ++ repeat blank n) widths) i
  = Some (strip (slice (sum (firstn i widths)) (sum (firstn i widths) + w) line)).
Proof.
  induction widths as [|w0 r IH]; intros line n i w H; [destruct i; discriminate|].
  destruct i as [|i]; cbn [nth_error cut_fields firstn sum] in *.
  - injection H as ->. unfold slice. cbn [skipn]. rewrite Nat.sub_0_r, Nat.add_0_l. rewrite firstn_app, firstn_repeat.
    rewrite strip_blanks_tail. reflexivity.
  - rewrite skipn_app, skipn_repeat. rewrite (IH _ _ _ _ H). f_equal. f_equal. unfold slice.
    rewrite skipn_skipn_add. f_equal. lia.
Qed.
Lemma cut_fields_length : forall widths line, length (cut_fields line widths) = length widths.
Proof. induction widths as [|w r IH]; intro line; simpl; auto. Qed.
Lemma extend80_blanks : forall line, exists n, extend80 line = line ++ repeat blank n.
Proof.
  intro line. unfold extend80. destruct (Nat.ltb (length line) 80); eauto. exists 0. symmetry. apply app_nil_r.
Qed.

Definition field := (string * (Z * str))%type.
Definition put_field (d : dict) (kv : string * option pyval) : dict := put_opt d (fst kv) (snd kv).

Lemma field_val_err : forall t s e, field_val t s = Err e -> e = ValueError.
Proof.
  intros t s e H. unfold field_val in H. destruct (t =? -1)%Z; [discriminate|]. destruct (t =? 1)%Z; [discriminate|].
  destruct (t =? 2)%Z.
  - unfold py_int in H. destruct (int_core (strip_num s)); cbn in H; congruence.
  - unfold py_float in H. destruct (float_core (strip_num s)); cbn in H; congruence.
Qed.

(** Value of a mandatory and of an optional field. *)
Definition opt_val (t : Z) (s : str) : option pyval :=
  match field_val t s with Ok v => v | Err _ => Some (field_default t) end.

Lemma mandatory_ok : forall l d vs, Forall2 (fun (f : field) v => field_val (fst (snd f)) (snd (snd f)) = Ok v) l vs ->
  mandatory d l = Ok (fold_left put_field (combine (map fst l) vs) d).
Proof.
  intros l d vs H. revert d. induction H as [|[k [t s]] v l vs Hv H IH]; intro d; cbn [mandatory map combine fold_left]; [reflexivity|].
  cbn in Hv. rewrite Hv. cbn [rbind fst]. rewrite IH. reflexivity.
Qed.
Lemma mandatory_err : forall l d f e, In f l -> field_val (fst (snd f)) (snd (snd f)) = Err e -> mandatory d l = Err ValueError.
Proof.
  induction l as [|[k [t s]] l IH]; intros d f e Hin He; [destruct Hin|]. cbn [mandatory].
  destruct (field_val t s) eqn:E; cbn [rbind].
  - destruct Hin as [<-|Hin]; [cbn in He; congruence|]. eauto.
  - f_equal. eapply field_val_err; eauto.
Qed.
Lemma optional_ok : forall l d,
  optional d l = Ok (fold_left put_field (map (fun f : field => (fst f, opt_val (fst (snd f)) (snd (snd f)))) l) d).
Proof.
  induction l as [|[k [t s]] l IH]; intro d; cbn [optional map fold_left]; [reflexivity|].
  cbn [fst snd]. destruct (field_val t s) as [v|e] eqn:E.
  - assert (Hov : opt_val t s = v) by (unfold opt_val; rewrite E; reflexivity). rewrite IH, Hov. reflexivity.
  - assert (e = ValueError) by (eapply field_val_err; eauto). subst e.
    assert (Hov : opt_val t s = Some (field_default t)) by (unfold opt_val; rewrite E; reflexivity). rewrite IH, Hov. reflexivity.
Qed.

Fixpoint assoc_s {A} (l : list (string * A)) (k : string) : option A :=
  match l with [] => None | (k', v) :: r => if String.eqb k k' then Some v else assoc_s r k end.
Lemma assoc_In : forall A (l : list (string * A)) k v, NoDup (map fst l) -> In (k, v) l -> assoc_s l k = Some v.
Proof.
  induction l as [|[k' v'] l IH]; intros k v Hn Hi; [destruct Hi|]. cbn [assoc_s map fst] in *. inversion Hn; subst.
  destruct Hi as [E|Hi].
  - injection E as -> ->. rewrite String.eqb_refl. reflexivity.
  - destruct (String.eqb_spec k k') as [->|]; [|auto]. exfalso. apply H1. apply in_map_iff. exists (k', v). auto.
Qed.
Lemma assoc_None : forall A (l : list (string * A)) k, ~ In k (map fst l) -> assoc_s l k = None.
Proof.
  induction l as [|[k' v'] l IH]; intros k H; [reflexivity|]. cbn [assoc_s map fst In] in *.
  destruct (String.eqb_spec k k') as [->|]; [exfalso; auto|auto].
Qed.
Lemma fold_put_get : forall l d k, NoDup (map fst l) ->
  dget (fold_left put_field l d) (KS k) = match assoc_s l k with Some (Some v) => Some v | _ => dget d (KS k) end.
Proof.
  induction l as [|[k0 v0] l IH]; intros d k Hn; cbn [fold_left assoc_s]; [reflexivity|]. inversion Hn; subst.
  rewrite IH by assumption. cbn [fst] in H1.
  assert (Hp : forall k, dget (put_field d (k0, v0)) (KS k) = if String.eqb k k0 then match v0 with Some v => Some v | None => dget d (KS k) end else dget d (KS k)).
  { intro k1. unfold put_field, put_opt. cbn [fst snd]. destruct v0; [|destruct (String.eqb k1 k0); reflexivity].
    rewrite dget_dput. reflexivity. }
  rewrite Hp. destruct (String.eqb_spec k k0) as [->|]; [|reflexivity].
  rewrite assoc_None by assumption. destruct v0; reflexivity.
Qed.

(** The stripped text of column [i], read from the line as it is. *)
Definition column (line : str) (widths : list nat) (i : nat) : str :=
  strip (slice (sum (firstn i widths)) (sum (firstn (S i) widths)) line).

Lemma firstn_S_sum : forall widths i w, nth_error widths i = Some w ->
  sum (firstn (S i) widths) = sum (firstn i widths) + w.
Proof.
  induction widths as [|w0 r IH]; intros i w H; [destruct i; discriminate|].
  destruct i as [|i]; cbn [nth_error] in H.
  - injection H as ->. cbn [firstn sum]. lia.
  - specialize (IH _ _ H). change (firstn (S (S i)) (w0 :: r)) with (w0 :: firstn (S i) r).
    change (firstn (S i) (w0 :: r)) with (w0 :: firstn i r). cbn [sum]. lia.
Qed.
Lemma combine_nth_error : forall A B (a : list A) (b : list B) i,
  nth_error (combine a b) i = match nth_error a i, nth_error b i with Some x, Some y => Some (x, y) | _, _ => None end.
Proof.
  induction a as [|x a IH]; intros [|y b] i; destruct i as [|i]; cbn [combine nth_error]; auto.
  - destruct (nth_error a i); reflexivity.
Qed.
Lemma In_firstn_nth : forall A (l : list A) n x, In x (firstn n l) <-> exists i, i < n /\ nth_error l i = Some x.
Proof.
  induction l as [|y l IH]; intros n x; split.
  - rewrite firstn_nil. intros [].
  - intros (i & _ & H). destruct i; discriminate.
  - destruct n as [|n]; [intros []|]. cbn [firstn]. intros [<-|H].
    + exists 0. split; [lia|reflexivity].
    + apply IH in H as (i & Hi & E). exists (S i). split; [lia|assumption].
  - intros (i & Hi & E). destruct n as [|n]; [lia|]. cbn [firstn]. destruct i as [|i].
    + left. cbn in E. congruence.
    + right. apply IH. exists i. split; [lia|assumption].
Qed.
Lemma firstn_skipn_nth : forall A (l : list A) n i x, nth_error l i = Some x ->
  (i < n /\ In x (firstn n l)) \/ (n <= i /\ In x (skipn n l)).
Proof.
  intros A l n i x H. destruct (le_lt_dec n i) as [Hle|Hlt].
  - right. split; [assumption|]. apply nth_error_In with (i - n). rewrite nth_error_skipn. rewrite skipn_skipn_add.
    replace (n + (i - n)) with i by lia. rewrite <- nth_error_skipn. assumption.
  - left. split; [assumption|]. apply In_firstn_nth. eauto.
Qed.

Section HeaderLine.
Variables (line : str) (minv : nat) (widths : list nat) (types : list Z) (names : list string).
Hypothesis Hnames : length widths <= length names.
Hypothesis Htypes : length widths <= length types.
Hypothesis Hmin : minv <= length widths.

Let all := combine names (combine types (cut_fields (extend80 line) widths)).

Lemma all_nth : forall i k t, i < length widths -> nth_error names i = Some k -> nth_error types i = Some t ->
  nth_error all i = Some (k, (t, column line widths i)).
Proof.
  intros i k t Hi Hk Ht. unfold all. rewrite !combine_nth_error, Hk, Ht.
  destruct (nth_error widths i) as [w|] eqn:Ew; [|apply nth_error_None in Ew; lia].
  destruct (extend80_blanks line) as [n ->]. rewrite (cut_fields_nth _ _ _ _ _ Ew).
  unfold column. rewrite (firstn_S_sum _ _ _ Ew). reflexivity.
Qed.
Lemma all_length : length all = length widths.
Proof. unfold all. rewrite !combine_length, cut_fields_length. lia. Qed.

Lemma parse_header_unfold : parse_header_line line minv widths types names
  = do d <- mandatory [] (firstn minv all) ;; optional d (skipn minv all).
Proof.
  unfold parse_header_line. rewrite cut_fields_length.
  destruct (Nat.ltb_spec (length names) (length widths)); [lia|].
  destruct (Nat.ltb_spec (length widths) minv); [lia|]. cbn [orb].
  destruct (Nat.ltb_spec (length types) (length widths)); [lia|]. reflexivity.
Qed.

Lemma header_err : forall i t e, i < minv -> nth_error types i = Some t -> field_val t (column line widths i) = Err e ->
  parse_header_line line minv widths types names = Err ValueError.
Proof.
  intros i t e Hi Ht He. rewrite parse_header_unfold.
  destruct (nth_error names i) as [k|] eqn:Ek; [|apply nth_error_None in Ek; lia].
  assert (Ha := all_nth i k t ltac:(lia) Ek Ht).
  assert (Hin : In (k, (t, column line widths i)) (firstn minv all)) by (apply In_firstn_nth; eauto).
  rewrite (mandatory_err _ _ _ e Hin) by assumption. reflexivity.
Qed.

Lemma header_ok : NoDup names ->
  (forall i t, i < minv -> nth_error types i = Some t -> exists v, field_val t (column line widths i) = Ok v) ->
  exists d, parse_header_line line minv widths types names = Ok d /\
    (forall i k t, i < length widths -> nth_error names i = Some k -> nth_error types i = Some t ->
       dget d (KS k) = opt_val t (column line widths i)) /\
    (forall k, ~ In k (firstn (length widths) names) -> dget d (KS k) = None).
Proof.
  intros Hnd Hok. rewrite parse_header_unfold.
  assert (Hsplit : firstn minv all ++ skipn minv all = all) by apply firstn_skipn.
  assert (Hfst : map fst all = firstn (length widths) names).
  { unfold all. assert (Hl : length (combine types (cut_fields (extend80 line) widths)) = length widths).
    { rewrite combine_length, cut_fields_length. lia. }
    clear - Hl Hnames. revert names Hnames Hl. generalize (combine types (cut_fields (extend80 line) widths)).
    intros l. generalize (length widths). intro n. revert n. induction l as [|x l IH]; intros n [|k ks] Hk Hl; simpl in *; subst n; auto; simpl in *; try lia.
    f_equal. apply IH; lia. }
  assert (Hnd2 : NoDup (map fst all)).
  { rewrite Hfst. rewrite <- (firstn_skipn (length widths) names) in Hnd. clear - Hnd. induction (firstn (length widths) names) as [|a l IH]; [constructor|].
    simpl in Hnd. inversion Hnd; subst. constructor; [intro H; apply H1; apply in_or_app; auto|auto]. }
  set (val := fun f : field => opt_val (fst (snd f)) (snd (snd f))).
  assert (Hf2 : Forall2 (fun (f : field) v => field_val (fst (snd f)) (snd (snd f)) = Ok v) (firstn minv all) (map val (firstn minv all))).
  { assert (Hall : forall f, In f (firstn minv all) -> field_val (fst (snd f)) (snd (snd f)) = Ok (val f)).
    { intros [k [t s]] Hin. apply In_firstn_nth in Hin as (i & Hi & E).
      destruct (nth_error names i) as [k'|] eqn:Ek; [|apply nth_error_None in Ek; lia].
      destruct (nth_error types i) as [t'|] eqn:Et; [|apply nth_error_None in Et; lia].
      assert (Ha := all_nth i k' t' ltac:(lia) Ek Et). rewrite E in Ha. injection Ha as -> -> ->.
      destruct (Hok i t' Hi Et) as [v Hv]. unfold val, opt_val. cbn [fst snd]. rewrite Hv. reflexivity. }
    clear - Hall. induction (firstn minv all) as [|f l IH]; cbn [map]; constructor.
    - apply Hall. left. reflexivity.
    - apply IH. intros. apply Hall. right. assumption. }
  rewrite (mandatory_ok _ _ _ Hf2). cbn [rbind]. rewrite optional_ok. eexists. split; [reflexivity|].
  rewrite <- fold_left_app.
  assert (Hc : combine (map fst (firstn minv all)) (map val (firstn minv all)) = map (fun f => (fst f, val f)) (firstn minv all)).
  { clear. induction (firstn minv all) as [|f l IH]; cbn [map combine]; congruence. }
  rewrite Hc.
  change (map (fun f : field => (fst f, opt_val (fst (snd f)) (snd (snd f)))) (skipn minv all)) with (map (fun f => (fst f, val f)) (skipn minv all)).
  rewrite <- map_app, Hsplit.
  assert (Hmf : map fst (map (fun f => (fst f, val f)) all) = map fst all) by (rewrite map_map; reflexivity).
  split.
  - intros i k t Hi Hk Ht. assert (Ha := all_nth i k t Hi Hk Ht). rewrite fold_put_get by (rewrite Hmf; assumption).
    rewrite assoc_In with (v := opt_val t (column line widths i)).
    + destruct (opt_val t (column line widths i)); reflexivity.
    + rewrite Hmf. assumption.
    + apply in_map_iff. exists (k, (t, column line widths i)). split; [reflexivity|]. eapply nth_error_In; eauto.
  - intros k Hk. rewrite fold_put_get by (rewrite Hmf; assumption). rewrite assoc_None; [reflexivity|].
    rewrite Hmf, Hfst. assumption.
Qed.
End HeaderLine.
