(** Writing in append mode: no writer touches earlier bytes. *)
From Verif Require Import PyBase PyNum PyVal Utf8 Tools DsNodes DsHeaders DsGroups Ds55 Ds58 Ds2414 Uff
  Facts Scan Container.
From Coq Require Import Lia.
Open Scope nat_scope.

Lemma Forall_flat_map : forall A B (P : B -> Prop) (f : A -> list B) l,
  (forall a, In a l -> Forall P (f a)) -> Forall P (flat_map f l).
Proof.
  intros A B P f l H. induction l as [|a l IH]; simpl; [constructor|].
  apply Forall_app. split; [apply H; left; reflexivity|]. apply IH. intros. apply H. right. assumption.
Qed.

Ltac nt :=
  repeat (cbv beta zeta match;
    match goal with
    | |- no_trunc (WTxt _) => exact Logic.I
    | |- no_trunc (WRaw _) => exact Logic.I
    | |- no_trunc (txt _ _) => exact Logic.I
    | |- no_trunc end_line => exact Logic.I
    | |- no_trunc (hdr_lines _) => exact Logic.I
    | |- no_trunc (row10 _) => exact Logic.I
    | |- no_trunc (rec15 _ _) => exact Logic.I
    | |- no_trunc (axis_line _ _) => exact Logic.I
    | |- no_trunc (if ?b then _ else _) => destruct b
    | |- Forall no_trunc (_ ++ _) => apply Forall_app; split
    | |- Forall no_trunc (_ :: _) => constructor
    | |- Forall no_trunc [] => constructor
    | |- Forall no_trunc (map _ _) => apply Forall_map, Forall_forall; intros
    | |- Forall no_trunc (flat_map _ _) => apply Forall_flat_map; intros
    | |- Forall no_trunc (match ?x with _ => _ end) => destruct x
    | |- Forall no_trunc (wp_items (match ?x with _ => _ end)) => destruct x
    | |- Forall no_trunc (wp_items _) => cbn [wp_items]
    end).

Lemma nt_rows8 : forall n l, Forall no_trunc (rows8 n l).
Proof. induction n; intro l; simpl; constructor; auto. exact Logic.I. Qed.
Lemma nt_rec18 : forall d i, Forall no_trunc (rec18 d i).
Proof. intros. unfold rec18. nt. Qed.
Lemma nt_rec2411 : forall d i, Forall no_trunc (rec2411 d i).
Proof. intros. unfold rec2411. nt. Qed.
Lemma nt_rec2420 : forall d i, Forall no_trunc (rec2420 d i).
Proof. intros. unfold rec2420. nt. Qed.
Lemma nt_elem2412 : forall e, Forall no_trunc (elem2412 e).
Proof. intros. unfold elem2412. nt. Qed.
Lemma nt_group2467 : forall e, Forall no_trunc (group2467 e).
Proof. intros. unfold group2467, ent_lines. nt. Qed.
Lemma nt_recs7_8 : forall d z, Forall no_trunc (recs7_8 d z).
Proof. intros. unfold recs7_8. nt. Qed.
Lemma nt_node55 : forall d a b k, Forall no_trunc (node55 d a b k).
Proof. intros. unfold node55. nt. Qed.
Lemma nt_header58 : forall p, Forall no_trunc (header58 p).
Proof. intros. unfold header58. nt. Qed.
Lemma nt_num_block : forall ws l, Forall no_trunc (num_block ws l).
Proof. intros. unfold num_block. nt. Qed.
Lemma nt_ascii58 : forall a b c l, Forall no_trunc (ascii58 a b c l).
Proof. intros. unfold ascii58. nt; apply nt_num_block. Qed.
Lemma nt_node2414 : forall d k, Forall no_trunc (node2414 d k).
Proof. intros. unfold node2414. nt. Qed.
Lemma nt_row13 : forall r, Forall no_trunc (row13 r).
Proof. intros. unfold row13. nt. Qed.
Lemma nt_for_shape : forall d k f, (forall i, Forall no_trunc (f i)) -> Forall no_trunc (for_shape d k f).
Proof. intros. unfold for_shape. nt. auto. Qed.

(** In append mode the steps of every writer only append. *)
Lemma add_no_trunc : forall c fd ty d, Forall no_trunc (wp_items (write_dispatch c Add fd ty d)).
Proof.
  intros c fd ty d. unfold write_dispatch. nt.
  - unfold write15. nt.
  - unfold write18. nt. apply nt_rec18.
  - unfold write55. destruct (prep55 d) as [d1 rt]. nt; auto using nt_recs7_8, nt_node55.
  - unfold write58. nt; auto using nt_header58, nt_ascii58.
  - unfold write82. nt; apply nt_rows8.
  - unfold write151. nt.
  - unfold write164. nt.
  - unfold write1858. nt.
  - unfold write2400. nt.
  - unfold write2411. nt. apply nt_rec2411.
  - unfold write2412. nt. apply nt_elem2412.
  - unfold write2414, body2414. nt; apply nt_for_shape; intros; nt; auto using nt_node2414, nt_row13.
  - unfold write2420. nt. apply nt_rec2420.
  - unfold write2429. nt.
  - unfold write2467. nt. apply nt_group2467.
Qed.

(* ------------------------------------------------------------------ *)
(** ** One appended set, a list of appended sets *)

Definition old_bytes (file : option bytes) : bytes := match file with Some b => b | None => [] end.

Lemma write_set_add : forall c fd file u d,
  exists x, w_file (write_set c Add fd file u d) = Some (old_bytes file ++ x) /\
  (w_exc (write_set c Add fd file u d) = None ->
   refresh (Some (old_bytes file ++ x)) u = Ok (w_uff (write_set c Add fd file u d), true)) /\
  (w_exc (write_set c Add fd file u d) <> None -> w_uff (write_set c Add fd file u d) = u).
Proof.
  intros c fd file u d.
  assert (Hs : write_set c Add fd file u d = write_set c Add fd (Some (old_bytes file)) u d)
    by (destruct file; reflexivity).
  rewrite Hs. generalize (old_bytes file). intro start. unfold write_set. cbv zeta.
  destruct (dget d (KS "type")) as [ty|].
  2:{ exists []. rewrite app_nil_r. cbn [w_file w_exc w_uff].
    split; [reflexivity|]. split; [discriminate|reflexivity]. }
  match goal with |- context [match ?r with Ok _ => _ | Err _ => _ end] => destruct r as [d1|e] end.
  2:{ exists []. rewrite app_nil_r. cbn [w_file w_exc w_uff].
    split; [reflexivity|]. split; [discriminate|reflexivity]. }
  rewrite (run_items_append _ start (add_no_trunc c fd ty d1)).
  set (p := write_dispatch c Add fd ty d1).
  exists (fst (run_items [] (wp_items p))).
  destruct (snd (run_items [] (wp_items p))) as [e|].
  - cbn [w_file w_exc w_uff].
    split; [reflexivity|]. split; [discriminate|reflexivity].
  - rewrite refresh_some. cbn [w_file w_exc w_uff]. split; [reflexivity|].
    split; [intros _; apply refresh_some|congruence].
Qed.

Lemma extents_app_nonnil : forall a b, closed a -> extents a <> [] -> extents (a ++ b) <> [].
Proof.
  intros a b Hc H. unfold extents in *. rewrite tags_app_closed by assumption.
  destruct (pairs_app_prefix (tags a) (map (Nat.add (length a)) (tags b))) as [r ->].
  destruct (pairs (tags a)); [congruence|discriminate].
Qed.

(** The bytes after writing a list in append mode begin with the old ones. *)
Lemma write_list_add_prefix : forall ds c fd file u f' u' e,
  write_list c Add fd (Some file) u ds = (f', u', e) -> exists x, f' = Some (file ++ x).
Proof.
  induction ds as [|d ds IH]; intros c fd file u f' u' e H; simpl in H.
  - injection H as <- _ _. exists []. rewrite app_nil_r. reflexivity.
  - destruct (write_set_add c fd (Some file) u d) as (x & Hf & _ & _). cbn [old_bytes] in Hf.
    destruct (w_exc (write_set c Add fd (Some file) u d)).
    + injection H as <- _ _. eauto.
    + rewrite Hf in H. apply IH in H as [y ->]. exists (x ++ y). rewrite app_assoc. reflexivity.
Qed.

(** After a successful write the object describes the file, if it has a set. *)
Lemma write_list_add_view : forall ds c fd file u f' u',
  ds <> [] -> write_list c Add fd (Some file) u ds = (Some f', u', None) -> extents f' <> [] -> u' = view f'.
Proof.
  induction ds as [|d ds IH]; intros c fd file u f' u' Hne H He; [congruence|]. simpl in H.
  destruct (write_set_add c fd (Some file) u d) as (x & Hf & Hok & _). cbn [old_bytes] in Hf, Hok.
  destruct (w_exc (write_set c Add fd (Some file) u d)); [discriminate|].
  specialize (Hok eq_refl). rewrite Hf in H. destruct ds as [|d2 ds].
  - simpl in H. injection H as <- <-. rewrite refresh_view in Hok by assumption. congruence.
  - eapply IH; eauto. discriminate.
Qed.

(* ------------------------------------------------------------------ *)
(** ** Interruption *)

(** Contents of the file when the process stops while the steps are executed:
    between two steps or inside one of them. *)
Inductive stop_items : bytes -> list item -> bytes -> Prop :=
| stop_here : forall f l, stop_items f l f
| stop_in_txt : forall f s b p q l, utf8_encode s = Ok b -> b = p ++ q -> stop_items f (WTxt (Ok s) :: l) (f ++ p)
| stop_in_raw : forall f b p q l, b = p ++ q -> stop_items f (WRaw b :: l) (f ++ p)
| stop_after_txt : forall f s b l f', utf8_encode s = Ok b -> stop_items (f ++ b) l f' -> stop_items f (WTxt (Ok s) :: l) f'
| stop_after_raw : forall f b l f', stop_items (f ++ b) l f' -> stop_items f (WRaw b :: l) f'
| stop_after_trunc : forall f l f', stop_items [] l f' -> stop_items f (WTrunc :: l) f'.

(** The steps a call executes for one set: none if the call raises before. *)
Definition set_items (c : clock) (m : wmode) (fd : bool) (d : dict) : list item :=
  match dget d (KS "type") with
  | None => []
  | Some ty =>
      match match dget d (KS "data") with
            | None => Ok d
            | Some v => do v' <- np_nan_to_num v ;; Ok (dput d (KS "data") v')
            end with
      | Ok d1 => wp_items (write_dispatch c m fd ty d1)
      | Err _ => []
      end
  end.

(** Interruption of write_sets in append mode: in the first set, or in a later
    one after the sets before it were written. *)
Inductive stop_add (c : clock) (fd : bool) : bytes -> list dict -> bytes -> Prop :=
| stop_first : forall f d ds f', stop_items f (set_items c Add fd d) f' -> stop_add c fd f (d :: ds) f'
| stop_later : forall f d ds f1 f', run_items f (set_items c Add fd d) = (f1, None) ->
    stop_add c fd f1 ds f' -> stop_add c fd f (d :: ds) f'.

Lemma set_items_no_trunc : forall c fd d, Forall no_trunc (set_items c Add fd d).
Proof.
  intros c fd d. unfold set_items. destruct (dget d (KS "type")); [|constructor].
  match goal with |- context [match ?r with Ok _ => _ | Err _ => _ end] => destruct r end; [|constructor].
  apply add_no_trunc.
Qed.

Lemma stop_items_prefix : forall f l f', stop_items f l f' -> Forall no_trunc l -> exists p, f' = f ++ p.
Proof.
  intros f l f' H. induction H; intro Hn.
  - exists []. rewrite app_nil_r. reflexivity.
  - eauto.
  - eauto.
  - inversion Hn; subst. destruct IHstop_items as [p ->]; auto. exists (b ++ p). rewrite app_assoc. reflexivity.
  - inversion Hn; subst. destruct IHstop_items as [p ->]; auto. exists (b ++ p). rewrite app_assoc. reflexivity.
  - inversion Hn; subst. simpl in *. tauto.
Qed.

Lemma stop_add_prefix : forall c fd f ds f', stop_add c fd f ds f' -> exists p, f' = f ++ p.
Proof.
  intros c fd f ds f' H. induction H as [f d ds f' Hs|f d ds f1 f' Hr Hs [p ->]].
  - eapply stop_items_prefix; eauto. apply set_items_no_trunc.
  - rewrite run_items_append in Hr by apply set_items_no_trunc. injection Hr as <- _.
    rewrite <- app_assoc. eauto.
Qed.

(** [set_items] are the steps [write_set] executes. *)
Lemma write_set_items : forall c m fd file u d,
  w_file (write_set c m fd file u d)
  = Some (fst (run_items (match m with Add => old_bytes file | Overwrite => [] end) (set_items c m fd d))).
Proof.
  intros c m fd file u d.
  assert (Hs : (match m, file with Add, Some b => b | _, _ => [] end : bytes)
               = match m with Add => old_bytes file | Overwrite => [] end) by (destruct m, file; reflexivity).
  rewrite <- Hs. clear Hs. unfold write_set, set_items. cbv zeta.
  destruct (dget d (KS "type")) as [ty|]; [|reflexivity].
  match goal with |- context [match ?r with Ok _ => _ | Err _ => _ end] => destruct r as [d1|e] end; [|reflexivity].
  destruct (run_items _ _) as [b [e|]]; [reflexivity|]. rewrite refresh_some. reflexivity.
Qed.
