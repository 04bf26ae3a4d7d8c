(** Prepared and converted sets on their way through a file (C21, C22, C37, C58, C59, C60). *)
From Coq Require Import String List NArith ZArith Bool Lia.
Import ListNotations.
From Verif Require Import PyBase PyNum PyVal Utf8 Tools DsNodes DsHeaders DsGroups Uff Facts DictFacts FloatText Container Append Lines Stored Cells Rows
  RtNodes RtCs RtHeads RtElems RtGroups RtNodal RtFun RtFunSet RtAnalysis PropNodes PropGroups PropHistory Witness Prepare PropPrepare.
From Coq Require Import Lia.
Open Scope string_scope.
Open Scope list_scope.
Open Scope nat_scope.

(* ------------------------------------------------------------------ *)
(** ** C58: prepared sets *)

(** Dictionaries with the same entries under every string key say the same. *)
Definition same_get (d e : dict) : Prop := forall k, dget d (KS k) = dget e (KS k).
Lemma has_ext : forall A (P : pyval -> A -> Prop) d e k a, same_get d e -> has P d k a -> has P e k a.
Proof. intros A P d e k a E (v & H & Hp). exists v. rewrite <- E. auto. Qed.
Lemma has_or_ext : forall A (P : pyval -> A -> Prop) d e k a b, same_get d e -> has_or P d k a b -> has_or P e k a b.
Proof. intros A P d e k a b E [H|[H1 H2]]; [left; eapply has_ext; eauto|right]. rewrite <- E. auto. Qed.
Lemma field_ext : forall A (P : pyval -> A -> Prop) f d e k a b, same_get d e -> field P f d k a b -> field P f e k a b.
Proof. intros A P [] d e k a b E H; [eapply has_ext|eapply has_or_ext]; eauto. Qed.
Lemma Forall2_imp : forall A B (P Q : A -> B -> Prop) l m, (forall a b, P a b -> Q a b) -> Forall2 P l m -> Forall2 Q l m.
Proof. intros A B P Q l m H F. induction F; constructor; auto. Qed.
Ltac ext E :=
  repeat match goal with H : _ /\ _ |- _ => destruct H end;
  repeat match goal with |- _ /\ _ => split end;
  try assumption;
  try match goal with
  | |- dget _ _ = _ => rewrite <- E; assumption
  | |- has _ _ _ _ => eapply has_ext; [exact E|eassumption]
  | |- has_or _ _ _ _ _ => eapply has_or_ext; [exact E|eassumption]
  | |- Forall2 _ _ _ => eapply Forall2_imp; [|eassumption]; intros ? ?; first [eapply has_ext; exact E|eapply has_or_ext; exact E|eapply field_ext; exact E]
  end.
Lemma axis_ext : forall d e p a, same_get d e -> repr_axis d p a -> repr_axis e p a.
Proof. intros d e p a E H. unfold repr_axis in *. ext E. Qed.
Lemma states_ext : forall c m fd d e x, same_get d e -> type_of x <> 2412%Z -> states c m fd d x -> states c m fd e x.
Proof.
  intros c m fd d e x E Hx H.
  assert (E456 : has456 d = has456 e) by (unfold has456, dmem; rewrite !E; reflexivity).
  destruct x as [l|l|r|b r|t|h|u|q|h|l|l|a|p|g es|l]; cbn [states type_of] in *; try (destruct H as [H W]; split; [|exact W]).
  - unfold repr15, node_dict in *. ext E.
  - unfold repr18 in *. ext E.
  - unfold repr55 in *. ext E.
    + unfold repr_modes in *. destruct (v_modes r); ext E.
    + unfold repr_rows in *. destruct (v_kind r); rewrite <- ?E456; ext E.
  - assert (G : forall bin, repr58 fd bin d r -> repr58 fd bin e r).
    { intros bin H'. unfold repr58 in *. ext E; try (eapply axis_ext; [exact E|eassumption]).
      - destruct fd; [assumption|]. eapply has_ext; [exact E|eassumption].
      - rewrite <- E. assumption.
      - rewrite <- E. assumption. }
    destruct b; intuition auto.
  - unfold repr82 in *. ext E. rewrite <- E. assumption.
  - unfold repr151 in *. ext E.
  - unfold repr164 in *. ext E.
  - unfold repr1858 in *. ext E.
  - unfold repr2400 in *. ext E.
  - unfold repr2411, node_dict in *. ext E.
  - contradiction (Hx eq_refl).
  - unfold repr2414 in *. ext E. unfold repr_body in *. destruct (n_body a); ext E; intro; eapply has_ext; eauto.
  - unfold repr2420 in *. ext E.
  - unfold repr2429 in *. ext E. all: unfold sets_or in *; ext E.
  - unfold repr2467 in *. ext E.
Qed.

(** The dictionary a user writes down directly: the type and the arguments that are not None. *)
Definition plain_dict (n : Z) (a : kwargs) : dict := (KS "type", VInt n) :: check_dict_for_none (map (fun kv => (KS (fst kv), snd kv)) a).
Lemma kw_get : forall a k, NoDup (map fst a) -> dget (check_dict_for_none (map (fun kv => (KS (fst kv), snd kv)) a)) (KS k) =
  if is_none (given a k) then None else Some (given a k).
Proof.
  intros a k H. rewrite clean_get.
  - unfold given. clear H. induction a as [|[k' v] a IH]; [reflexivity|]. cbn [map dget fst snd kwget]. cbn [key_eqb]. destruct (String.eqb k k'); [destruct v; reflexivity|exact IH].
  - rewrite map_map. cbn [fst]. clear - H. induction a as [|[x y] l IH]; [constructor|]. inversion H as [|? ? Hx Hl]. subst. cbn [map fst]. constructor; [|auto].
    intro Hi. apply in_map_iff in Hi as ([x' y'] & E & Hi). injection E as ->. apply Hx. apply in_map_iff. exists (x, y'). auto.
Qed.
Lemma prepared_same : forall sg a d n, In sg sigs -> ps_type sg = Some n -> NoDup (map fst a) -> prepare sg a false = Ok d -> same_get (plain_dict n a) d.
Proof.
  intros sg a d n Hs Hn Hd H k. destruct (C57_values sg a false d Hs H) as ((n' & Hn' & T) & P & K). rewrite Hn in Hn'. injection Hn' as <-.
  unfold plain_dict. cbn [dget key_eqb]. destruct (String.eqb_spec k "type") as [->|Hk]; [symmetry; exact T|]. rewrite kw_get by exact Hd.
  destruct (in_dec string_dec k (ps_params sg)) as [Hi|Hi]; [rewrite P by exact Hi; reflexivity|].
  assert (G : given a k = VNone).
  { unfold given. destruct (kwget a k) as [v|] eqn:E; [|reflexivity]. exfalso. apply Hi. apply C57_accepted in H as (H & _). unfold accepts in H.
    apply andb_true_iff in H as [H _]. rewrite forallb_forall in H.
    assert (In (k, v) a) by (revert E; clear; induction a as [|[k' w] a IH]; [discriminate|]; cbn [kwget]; destruct (String.eqb_spec k k') as [->|]; [intro E; injection E as ->; left; reflexivity|right; auto]).
    specialize (H _ H0). apply existsb_exists in H as (y & Hy & E'). apply String.eqb_eq in E'. cbn in E'. subst y. exact Hy. }
  rewrite G. cbn [is_none]. symmetry. apply dget_None. intro Hk'. apply in_map_iff in Hk' as ([key v] & E & Hi'). cbn in E. subst key.
  destruct (K _ _ Hi') as [X|(k2 & X & Hk2)]; [congruence|]. injection X as <-. contradiction.
Qed.
(** A prepared set of any type but 2412 says what the arguments say: it is written
    and read back with that content, wherever the file allows writing. *)
Theorem C58_prepared : forall sg a d n c m fd x, In sg sigs -> ps_type sg = Some n -> NoDup (map fst a) -> prepare sg a false = Ok d ->
  type_of x <> 2412%Z -> states c m fd (plain_dict n a) x -> states c m fd d x /\ forall ho, round_trips c m fd ho d (reading ho x).
Proof.
  intros sg a d n c m fd x Hs Hn Hd H Hx Hst. assert (S : states c m fd d x) by (eapply states_ext; [eapply prepared_same; eauto|exact Hx|exact Hst]).
  split; [exact S|]. intro ho. apply states_faithful with (ho := ho) in S. destruct S as (b & Hb & Ht & Hr). eapply stored_round_trips; eassumption.
Qed.
Print Assumptions C58_prepared.
Theorem C58_groups : forall l full d gs c m fd, prepare_2467 (VList l) full = Ok d -> Forall2 repr_group l gs -> wf2467 gs ->
  states c m fd d (X2467 gs) /\ forall ho, round_trips c m fd ho d (read2467 gs).
Proof.
  intros l full d gs c m fd H R W. apply C57_groups in H as (l' & E & ->). injection E as <-.
  assert (S : states c m fd [(KS "type", VInt 2467); (KS "groups", VList l)] (X2467 gs)).
  { split; [|exact W]. split; [reflexivity|]. split; [reflexivity|]. exists (VList l). split; [reflexivity|]. exists l. auto. }
  split; [exact S|]. intro ho. eapply faithful_round_trips, (states_faithful c m fd ho _ (X2467 gs)). exact S.
Qed.
Print Assumptions C58_groups.
Definition a164 : kwargs := Eval vm_compute in [("units_code", VInt 1); ("length", fv "1.0"); ("force", fv "0.25"); ("temp", fv "1.5"); ("temp_offset", fv "273.15")].
Definition u164 : units := Eval vm_compute in
  {| u_code := 1; u_desc := lit "User unit system"; u_mode := 1; u_len := fl "1.0"; u_force := fl "0.25"; u_temp := fl "1.5"; u_off := fl "273.15" |}.
Example C58_example : (exists d, prepare sig164 a164 false = Ok d) /\ states noclock Add true (plain_dict 164 a164) (X164 u164).
Proof.
  split; [eexists; vm_compute; reflexivity|]. cbn [states]. split; [unfold repr164; wit|].
  unfold wf164, u164, short_text. cbn [u_code u_desc u_mode u_len u_force u_temp u_off]. wit; cbn; lia.
Qed.
(** With [return_full_dict] the missing arguments are stored as None, and the same
    set can no longer be written. *)
Theorem C58_full_refuted : exists a d d' f u f' u' e, prepare sig164 a false = Ok d /\ prepare sig164 a true = Ok d' /\
  write_sets noclock None uff0 [d] (lit "add") true = (Some f, u, None) /\ write_sets noclock None uff0 [d'] (lit "add") true = (f', u', Some e).
Proof.
  exists a164. do 7 eexists. split; [vm_compute; reflexivity|]. split; [vm_compute; reflexivity|]. split; [vm_compute; reflexivity|]. vm_compute; reflexivity.
Qed.
Print Assumptions C58_full_refuted.

(* ------------------------------------------------------------------ *)
(** ** C59: prepared elements *)

Lemma strings_empty : forall d, Forall (fun kv => exists k, fst kv = KS k) d -> elems_of d [].
Proof. induction d as [|[k v] d IH]; intro H; [reflexivity|]. inversion H as [|? ? [k' E] H2]. cbn [fst] in E. subst. cbn [elems_of]. auto. Qed.
Lemma no_elements : forall d c m fd ho, dget d (KS "type") = Some (VInt 2412) -> dget d (KS "data") = None -> Forall (fun kv => exists k, fst kv = KS k) d ->
  round_trips c m fd ho d [(KS "type", VInt 2412)].
Proof.
  intros d c m fd ho H1 H2 H3. eapply faithful_round_trips, (states_faithful c m fd ho d (X2412 [])). split; [|constructor].
  split; [exact H1|]. split; [exact H2|]. apply strings_empty. exact H3.
Qed.
(** Nothing of a set made by prepare_2412 is written: what is read back has no elements at all. *)
Theorem C59_refuted : forall a full d c m fd ho, prepare sig2412 a full = Ok d -> round_trips c m fd ho d [(KS "type", VInt 2412)].
Proof.
  intros a full d c m fd ho H. destruct (C57_values sig2412 a full d ltac:(unfold sigs; cbn [In]; auto 20) H) as ((n & E & T) & _ & K). injection E as <-.
  apply no_elements; [exact T| |].
  - apply dget_None. intro Hi. apply in_map_iff in Hi as ([key v] & E & Hi). cbn in E. subst key. destruct (K _ _ Hi) as [X|(k & X & Hk)]; [discriminate|].
    injection X as <-. revert Hk. cbn [ps_params sig2412 In]. intuition discriminate.
  - apply Forall_forall. intros [key v] Hi. cbn [fst]. destruct (K _ _ Hi) as [->|(k & -> & _)]; eauto.
Qed.
Print Assumptions C59_refuted.
(** The use in the documentation, [{'type': 2412, 'quad': data}], fares no better. *)
Theorem C59_documented_refuted : forall v c m fd ho, round_trips c m fd ho [(KS "type", VInt 2412); (KS "quad", v)] [(KS "type", VInt 2412)].
Proof.
  intros v c m fd ho. apply no_elements; [reflexivity|reflexivity|]. repeat (apply Forall_cons; [eexists; reflexivity|]). apply Forall_nil.
Qed.
Print Assumptions C59_documented_refuted.
Example C59_example : exists d, prepare sig2412 [("element_nums", VArr DInt [VInt 69552; VInt 98919]); ("fe_descriptor", VArr DInt [VInt 94; VInt 94]);
  ("nodes_nums", VArr2 DInt [[VInt 29; VInt 2218; VInt 2219; VInt 30]; [VInt 81619; VInt 83403; VInt 2218; VInt 29]])] false = Ok d.
Proof. eexists. vm_compute. reflexivity. Qed.

(* ------------------------------------------------------------------ *)
(** ** C37: dates of prepare_151 *)

Lemma sig151_in : In sig151 sigs.
Proof. unfold sigs. cbn [In]. auto 20. Qed.
(** The date and time of writing are those of the clock, whatever was given as
    [date_db_written] and [time_db_written]. *)
Theorem C37_refuted : forall a full d c m fd h, prepare sig151 a full = Ok d -> states c m fd d (X151 h) ->
  a_date3 h = now_date c /\ a_time3 h = now_time c.
Proof.
  intros a full d c m fd h H S. destruct (C57_values _ _ _ _ sig151_in H) as (_ & _ & K).
  assert (N : forall k, ~ In k (ps_params sig151) -> k <> "type" -> dget d (KS k) = None).
  { intros k Hk Ht. apply dget_None. intro Hi. apply in_map_iff in Hi as ([key v] & E & Hi). cbn in E. subst key.
    destruct (K _ _ Hi) as [X|(k2 & X & Hk2)]; [congruence|]. injection X as <-. contradiction. }
  destruct S as [S _]. unfold repr151 in S. repeat match goal with H : _ /\ _ |- _ => destruct H end.
  split.
  - match goal with X : has_or _ _ "date_file_written" _ _ |- _ => destruct X as [(v & Y & _)|[_ Y]]; [|exact Y] end.
    rewrite N in Y by (try discriminate; cbn [ps_params sig151 In]; intuition discriminate). discriminate.
  - match goal with X : has_or _ _ "time_file_written" _ _ |- _ => destruct X as [(v & Y & _)|[_ Y]]; [|exact Y] end.
    rewrite N in Y by (try discriminate; cbn [ps_params sig151 In]; intuition discriminate). discriminate.
Qed.
Print Assumptions C37_refuted.
(** The dates and times of creation and saving are those given. *)
Theorem C37_prepared : forall a full d c m fd h s, prepare sig151 a full = Ok d -> states c m fd d (X151 h) ->
  (given a "date_db_created" = VStr s -> a_date1 h = s) /\ (given a "time_db_created" = VStr s -> a_time1 h = s) /\
  (given a "date_db_saved" = VStr s -> a_date2 h = s) /\ (given a "time_db_saved" = VStr s -> a_time2 h = s).
Proof.
  intros a full d c m fd h s H S. destruct (C57_values _ _ _ _ sig151_in H) as (_ & V & _). destruct S as [S _]. unfold repr151 in S.
  repeat match goal with H : _ /\ _ |- _ => destruct H end.
  assert (G : forall k x y, In k (ps_params sig151) -> has_or as_txt d k x y -> given a k = VStr s -> x = s).
  { intros k x y Hk Ho Hg. specialize (V k Hk). rewrite Hg in V. cbn [is_none] in V. rewrite andb_false_r in V.
    destruct Ho as [(v & E & P)|[E _]]; [|congruence]. rewrite V in E. injection E as <-. unfold as_txt in P. cbn [to_str] in P. injection P as <-. reflexivity. }
  repeat split; intro Hg; (eapply G; [|eassumption|exact Hg]; cbn [ps_params sig151 In]; auto 20).
Qed.
Print Assumptions C37_prepared.
Definition a151 : kwargs := [("model_name", VStr (lit "m")); ("description", VStr (lit "d")); ("db_app", VStr (lit "a")); ("program", VStr (lit "p"));
  ("date_db_created", VStr (lit "27-Jan-16")); ("date_db_written", VStr (lit "28-Jan-16"))].
(** What happens to a date of writing that is given. *)
Example C37_example : exists d f u u' out, prepare sig151 a151 false = Ok d /\ write_sets noclock None uff0 [d] (lit "add") true = (Some f, u, None) /\
  read_sets (Some f) u (SelOne 0) false = Ok (u', One out) /\ dget out (KS "date_db_created") = Some (VStr (lit "27-Jan-16")) /\
  dget out (KS "date_file_written") = Some (VStr (lit "01-Jan-24")).
Proof.
  do 5 eexists. split; [vm_compute; reflexivity|]. split; [vm_compute; reflexivity|]. split; [vm_compute; reflexivity|]. split; [vm_compute; reflexivity|]. vm_compute; reflexivity.
Qed.

(* ------------------------------------------------------------------ *)
(** ** C21, C22, C60: elements as trace lines *)

Definition quad := (Z * Z * Z * Z)%type.
(** The row (list or array) starts with the four nodes. *)
Definition row_of (row : pyval) (q : quad) : Prop := let '(a, b, c, e) := q in
  exists rest, to_seq row = Ok (VInt a :: VInt b :: VInt c :: VInt e :: rest).
(** A set with quads: type 2412 and the rows under ['quad']['nodes_nums']. *)
Definition quad_set (d : dict) (qs : list quad) : Prop :=
  exists ty q rv rows, dget d (KS "type") = Some ty /\ py_eqZ ty 2412 = true /\ dget d (KS "quad") = Some (VDict q) /\
    dget q (KS "nodes_nums") = Some rv /\ to_seq rv = Ok rows /\ Forall2 row_of rows qs.
(** Another set. *)
Definition other_set (d : dict) : Prop :=
  exists ty, dget d (KS "type") = Some ty /\ (py_eqZ ty 2412 = false \/ dget d (KS "quad") = None).
(** The trace lines of an element: its four edges, each followed by 0. *)
Definition edges (q : quad) : list Z := let '(a, b, c, e) := q in [a; b; 0; b; c; 0; c; e; 0; e; a; 0]%Z.
Definition quad_ok (q : quad) : Prop := let '(a, b, c, e) := q in Forall (fun z => int64_ok z = true) [a; b; c; e].

Lemma skip_others : forall pre l i s, Forall other_set pre -> convert_loop i (pre ++ l) s = convert_loop (i + Z.of_nat (length pre)) l s.
Proof.
  induction pre as [|d pre IH]; intros l i s H; [cbn [app length]; rewrite Z.add_0_r; reflexivity|]. inversion H as [|? ? (ty & E1 & E2) H2]. subst.
  cbn [app convert_loop length]. unfold ix at 1. rewrite E1. cbn [of_option rbind].
  assert (E : py_eqZ ty 2412 && dmem d (KS "quad") = false) by (unfold dmem; destruct E2 as [-> | ->]; [reflexivity|apply andb_false_r]).
  rewrite E, IH by exact H2. f_equal. lia.
Qed.
Lemma row_entries : forall row q, row_of row q -> quad_entries row = Ok (map VInt (edges q)).
Proof.
  intros row [[[a b] c] e] [rest H]. unfold quad_entries, at_. cbn [of_option rbind]. rewrite H. cbn [of_option rbind].
  set (l := VInt a :: _).
  assert (P := fun i x => py_nth_ok pyval l i x). rewrite (P 0 (VInt a) eq_refl : py_nth l 0%Z = _), (P 1 (VInt b) eq_refl : py_nth l 1%Z = _), (P 2 (VInt c) eq_refl : py_nth l 2%Z = _), (P 3 (VInt e) eq_refl : py_nth l 3%Z = _). reflexivity.
Qed.
Lemma rows_entries : forall rows qs, Forall2 row_of rows qs -> rmap quad_entries rows = Ok (map (fun q => map VInt (edges q)) qs).
Proof.
  intros rows qs H. unfold rmap. induction H as [|row q rows qs Hr H IH]; [reflexivity|]. cbn [map rseq]. rewrite (row_entries _ _ Hr), IH. reflexivity.
Qed.
Lemma edges_ok : forall qs, Forall quad_ok qs -> Forall (fun z => int64_ok z = true) (flat_map edges qs).
Proof.
  induction qs as [|[[[a b] c] e] qs IH]; intro H; [constructor|]. inversion H as [|? ? H1 H2]. subst. cbn [flat_map]. apply Forall_app. split; [|auto].
  unfold quad_ok in H1. repeat match goal with X : Forall _ (_ :: _) |- _ => inversion X; clear X; subst end.
  cbn [edges]. repeat (apply Forall_cons; [first [assumption|reflexivity]|]). apply Forall_nil.
Qed.
Definition lines_of_quads (i : nat) (qs : list quad) : dict :=
  [(KS "type", VInt 82); (KS "trace_num", VInt (Z.of_nat i)); (KS "n_nodes", VInt (Z.of_nat (12 * length qs))); (KS "color", VInt 0);
   (KS "id", VStr []); (KS "nodes", VArr DInt (map VInt (flat_map edges qs)))].
Lemma edges_length : forall qs, length (flat_map edges qs) = 12 * length qs.
Proof. induction qs as [|[[[a b] c] e] qs IH]; [reflexivity|]. cbn [flat_map edges app length]. rewrite IH. lia. Qed.
Lemma concat_edges : forall qs, concat (map (fun q => map VInt (edges q)) qs) = map VInt (flat_map edges qs).
Proof. induction qs as [|q qs IH]; [reflexivity|]. cbn [map concat flat_map]. rewrite IH, map_app. reflexivity. Qed.
Lemma int64_count : forall n, int64_ok (Z.of_nat n) = true \/ (2 ^ 63 <= Z.of_nat n)%Z.
Proof. intro n. unfold int64_ok. destruct (Z.ltb_spec (Z.of_nat n) (2 ^ 63)); [left|right; lia]. rewrite andb_true_r. apply Z.leb_le. lia. Qed.
Lemma prepared82 : forall i qs, int64_ok (Z.of_nat i) = true -> int64_ok (Z.of_nat (12 * length qs)) = true ->
  prepare sig82 [("trace_num", VInt (Z.of_nat i)); ("n_nodes", VInt (Z.of_nat (12 * length qs))); ("nodes", VArr DInt (map VInt (flat_map edges qs)));
                 ("color", VInt 0); ("id", VStr [])] true = Ok (lines_of_quads i qs).
Proof.
  intros i qs H1 H2. apply C57_accepted. split; [reflexivity|]. split; [|reflexivity]. intros p c Hi. apply C57_checks.
  cbn [ps_checks sig82 In] in Hi. unfold np_kind.
  repeat (destruct Hi as [Hi|Hi]; [injection Hi as <- <-; cbn [arg kwget String.eqb Ascii.eqb Bool.eqb ps_default sig82 admits];
    first [right; unfold np_kind; cbn [shape deep_kind]; rewrite ?H1, ?H2; reflexivity|right; eauto]|]). contradiction.
Qed.
(** The loop at a set with quads, before any other. *)
Lemma first_quads : forall d qs post i, quad_set d qs -> qs <> [] -> Forall quad_ok qs ->
  int64_ok (Z.of_nat i) = true -> int64_ok (Z.of_nat (12 * length qs)) = true ->
  convert_loop (Z.of_nat i) (d :: post) {| a_arr := false; a_nodes := [] |} =
  (do ds <- convert_loop (Z.of_nat i + 1) post {| a_arr := true; a_nodes := map VInt (flat_map edges qs) |} ;; Ok (lines_of_quads i qs :: ds)).
Proof.
  intros d qs post i (ty & q & rv & rows & G1 & G2 & G3 & G4 & G5 & G6) Hn Hq Hi Hc. cbn [convert_loop]. unfold ix. rewrite G1. cbn [of_option rbind]. rewrite G2. unfold dmem. rewrite G3.
  cbn [andb of_option rbind vix]. unfold ix. rewrite G4. cbn [of_option rbind]. rewrite G5. cbn [of_option rbind]. unfold append_quads.
  assert (R : rows <> []) by (intros ->; inversion G6; subst; contradiction). destruct rows as [|r0 rows]; [contradiction|]. cbn [a_arr a_nodes].
  rewrite (rows_entries _ _ G6). cbn [rbind a_nodes app]. rewrite concat_edges. unfold nodes_array.
  rewrite C57_int_list; [|destruct qs as [|[[[a b] c] e] qs]; [contradiction|discriminate]|apply edges_ok; exact Hq]. cbn [of_option rbind].
  assert (V : forallb v_int (map VInt (flat_map edges qs)) = true) by (apply forallb_forall; intros x Hx; apply in_map_iff in Hx as (z & <- & _); reflexivity).
  rewrite V. cbn [rbind py_len to_seq]. rewrite map_length, edges_length, prepared82 by assumption. reflexivity.
Qed.
(** One set with quads among sets that are passed over: one set of trace lines,
    numbered by the place of the set, with 12 entries for each element. *)
Theorem C21_convert : forall pre d post qs, Forall other_set pre -> quad_set d qs -> Forall other_set post -> qs <> [] -> Forall quad_ok qs ->
  int64_ok (Z.of_nat (length pre)) = true -> int64_ok (Z.of_nat (12 * length qs)) = true ->
  convert_2412_to_82 (pre ++ d :: post) = Ok [lines_of_quads (length pre) qs].
Proof.
  intros pre d post qs Hp Hd Hq Hn Hk Hi Hc. unfold convert_2412_to_82. rewrite skip_others by exact Hp. rewrite Z.add_0_l, first_quads with (qs := qs) by assumption.
  rewrite <- (app_nil_r post), skip_others by exact Hq. reflexivity.
Qed.
Print Assumptions C21_convert.
(** No set with quads: nothing. *)
Theorem C21_none : forall l, Forall other_set l -> convert_2412_to_82 l = Ok [].
Proof. intros l H. unfold convert_2412_to_82. rewrite <- (app_nil_r l), skip_others by exact H. reflexivity. Qed.
Print Assumptions C21_none.
(** Two sets with quads: the conversion fails. *)
Theorem C22_refuted : forall pre d1 mid d2 post q1 q2, Forall other_set pre -> quad_set d1 q1 -> Forall other_set mid -> quad_set d2 q2 ->
  q1 <> [] -> q2 <> [] -> Forall quad_ok q1 -> int64_ok (Z.of_nat (length pre)) = true -> int64_ok (Z.of_nat (12 * length q1)) = true ->
  convert_2412_to_82 (pre ++ d1 :: mid ++ d2 :: post) = Err AttributeError.
Proof.
  intros pre d1 mid d2 post q1 q2 Hp H1 Hm H2 N1 N2 Hk Hi Hc. unfold convert_2412_to_82. rewrite skip_others by exact Hp.
  rewrite Z.add_0_l, first_quads with (qs := q1) by assumption. rewrite skip_others by exact Hm.
  destruct H2 as (ty & q & rv & rows & G1 & G2 & G3 & G4 & G5 & G6). cbn [convert_loop]. unfold ix. rewrite G1. cbn [of_option rbind]. rewrite G2. unfold dmem. rewrite G3.
  cbn [andb of_option rbind vix]. unfold ix. rewrite G4. cbn [of_option rbind]. rewrite G5. cbn [of_option rbind]. unfold append_quads.
  destruct rows as [|r0 rows]; [inversion G6; subst; contradiction|]. reflexivity.
Qed.
Print Assumptions C22_refuted.
Definition dq (l : list quad) : dict := [(KS "type", VInt 2412);
  (KS "quad", VDict [(KS "nodes_nums", VList (map (fun q => let '(a, b, c, e) := q in VList [VInt a; VInt b; VInt c; VInt e]) l))])].
Lemma dq_set : forall l, quad_set (dq l) l.
Proof.
  intro l. do 4 eexists. split; [reflexivity|]. split; [reflexivity|]. split; [reflexivity|]. split; [reflexivity|]. split; [reflexivity|].
  induction l as [|[[[a b] c] e] l IH]; constructor; [eexists; reflexivity|exact IH].
Qed.
Example C21_example : convert_2412_to_82 [[(KS "type", VInt 15)]; dq [(1, 2, 3, 4); (2, 5, 6, 3)]%Z; [(KS "type", VInt 2412)]] =
  Ok [lines_of_quads 1 [(1, 2, 3, 4); (2, 5, 6, 3)]%Z].
Proof. vm_compute. reflexivity. Qed.
Example C22_example : convert_2412_to_82 [dq [(1, 2, 3, 4)]%Z; dq [(2, 5, 6, 3)]%Z] = Err AttributeError.
Proof. vm_compute. reflexivity. Qed.

(** The trace lines are written and read back. *)
Definition drawable (q : quad) : Prop := let '(a, b, c, e) := q in
  Forall (fun z => 0 < z < 10 ^ 9)%Z [a; b; c; e] /\ a <> b /\ b <> c /\ c <> e /\ e <> a.
Definition trace_of (i : nat) (qs : list quad) : trace := {| t_num := Z.of_nat i; t_color := 0; t_id := []; t_nodes := flat_map edges qs |}.
Lemma edges_steps : forall qs, Forall drawable qs -> steps (map VInt (flat_map edges qs)).
Proof.
  induction qs as [|[[[a b] c] e] qs IH]; intro H; [exact Logic.I|]. inversion H as [|? ? D0 H2]. subst. destruct D0 as [H1 (N1 & N2 & N3 & N4)]. specialize (IH H2).
  repeat match goal with X : Forall _ (_ :: _) |- _ => inversion X; clear X; subst end.
  assert (D : forall x y, x <> y -> differ (VInt y) (VInt x) = true) by (intros x y Hxy; cbn; apply negb_true_iff, Z.eqb_neq; congruence).
  cbn [flat_map edges app map]. destruct qs as [|[[[a' b'] c'] e'] qs].
  - cbn [flat_map map steps]. repeat split; apply D; lia.
  - assert (Ha : a' <> 0%Z) by (inversion H2 as [|? ? D1 ?]; subst; destruct D1 as [X _]; inversion X; subst; lia).
    cbn [flat_map edges app map] in IH |- *. cbn [steps] in IH |- *. repeat (split; [apply D; lia|]). exact IH.
Qed.
Theorem C60_written : forall c m fd ho i qs, Forall drawable qs -> qs <> [] -> (Z.of_nat i < 10 ^ 10)%Z -> (Z.of_nat (12 * length qs) < 10 ^ 10)%Z ->
  round_trips c m fd ho (lines_of_quads i qs) (read82 (trace_of i qs)).
Proof.
  intros c m fd ho i qs H Hn Hi Hc. eapply faithful_round_trips, (states_faithful c m fd ho _ (X82 (trace_of i qs))). split.
  - split; [reflexivity|]. split; [reflexivity|]. split; [eexists; split; [reflexivity|reflexivity]|]. split; [left; eexists; split; [reflexivity|reflexivity]|].
    split; [left; eexists; split; [reflexivity|reflexivity]|]. exists DInt, (map VInt (flat_map edges qs)). split; [reflexivity|]. split; [left; reflexivity|].
    split; [|apply edges_steps; exact H]. cbn [t_nodes trace_of]. induction (flat_map edges qs); constructor; [reflexivity|assumption].
  - assert (Hf : forall k z, (0 <= z < 10 ^ Z.of_nat (S k))%Z -> fits (S k) z).
    { intros k z Hz. unfold fits. split; [|lia]. assert (0 < 10 ^ (Z.of_nat (S k) - 1))%Z by (apply Z.pow_pos_nonneg; lia). lia. }
    split; [apply Hf; cbn [t_num trace_of]; change (Z.of_nat 10) with 10%Z; lia|]. split; [apply Hf; cbn; lia|]. split; [discriminate|].
    split; [split; [split; [reflexivity|constructor]|reflexivity]|]. split; [cbn [t_nodes trace_of]; destruct qs as [|[[[a b] e] g] qs]; [contradiction|discriminate]|].
    split; [apply Hf; cbn [t_nodes trace_of]; rewrite edges_length; change (Z.of_nat 10) with 10%Z; lia|].
    cbn [t_nodes trace_of]. clear Hn Hc Hi. induction qs as [|[[[a b] e] g] qs IH]; [constructor|]. inversion H as [|? ? D0 H2]. subst. destruct D0 as [H1 _]. cbn [flat_map]. apply Forall_app. split; [|auto].
    repeat match goal with X : Forall _ (_ :: _) |- _ => inversion X; clear X; subst end.
    cbn [edges]. repeat (apply Forall_cons; [split; [apply Hf; change (Z.of_nat 9) with 9%Z; lia|lia]|]). apply Forall_nil.
Qed.
Print Assumptions C60_written.
(** From the elements of a file: reading, converting, writing and reading. *)
Definition quad_of (e : elem) : quad :=
  (nth 0 (e_nodes e) 0, nth 1 (e_nodes e) 0, nth 2 (e_nodes e) 0, nth 3 (e_nodes e) 0)%Z.
Lemma read_quads : forall l, with_desc 44 l <> [] -> Forall (fun e => 4 <= length (e_nodes e)) (with_desc 44 l) ->
  quad_set (read2412 l) (map quad_of (with_desc 44 l)).
Proof.
  intros l Hn H. exists (VInt 2412), (columns2412 (with_desc 44 l)). do 2 eexists. split; [reflexivity|]. split; [reflexivity|]. split.
  - unfold read2412. cbn [dget key_eqb]. change (String.eqb "quad" "type") with false. cbn iota.
    assert (G : forall ks r, dget (map (fun k => (KI k, VList (map (fun e => VDict (elem_out e)) (with_desc k l)))) ks ++ r) (KS "quad") = dget r (KS "quad")).
    { induction ks as [|k ks IH]; intro r; [reflexivity|]. cbn [map app dget key_eqb]. apply IH. }
    unfold groups2412. rewrite G. unfold legacy2412 at 1. destruct (with_desc 41 l) as [|e41 l41].
    + cbn [app]. unfold legacy2412. destruct (with_desc 44 l); [contradiction|reflexivity].
    + cbn [app dget key_eqb]. change (String.eqb "quad" "triangle") with false. cbn iota. unfold legacy2412. destruct (with_desc 44 l); [contradiction|reflexivity].
  - split; [reflexivity|]. split; [reflexivity|]. clear Hn. induction H as [|e es He H IH]; [constructor|]. cbn [map]. constructor; [|exact IH].
    unfold row_of, quad_of. destruct (e_nodes e) as [|a [|b [|c [|g r]]]]; cbn [length] in He; try lia. exists (map VInt r). reflexivity.
Qed.
Theorem C60_chain : forall l, let qs := map quad_of (with_desc 44 l) in
  qs <> [] -> Forall (fun e => 4 <= length (e_nodes e)) (with_desc 44 l) -> Forall drawable qs -> (Z.of_nat (12 * length qs) < 10 ^ 10)%Z ->
  exists d, convert_2412_to_82 [read2412 l] = Ok [d] /\ forall c m fd ho, round_trips c m fd ho d (read82 (trace_of 0 qs)).
Proof.
  intros l qs Hn H4 Hd Hc. exists (lines_of_quads 0 qs). split; [|intros; apply C60_written; [assumption|assumption|reflexivity|assumption]].
  change [read2412 l] with ([] ++ read2412 l :: []). rewrite (C21_convert [] (read2412 l) [] qs); try reflexivity; try constructor; try assumption.
  - apply read_quads; [|assumption]. intro E. apply Hn. unfold qs. rewrite E. reflexivity.
  - eapply Forall_impl; [|exact Hd]. intros [[[a b] c] e] [X _]. unfold quad_ok. eapply Forall_impl; [|exact X]. intros z Hz. cbv beta in Hz. change (10 ^ 9)%Z with 1000000000%Z in Hz.
    unfold int64_ok. change (2 ^ 63)%Z with 9223372036854775808%Z. apply andb_true_iff. split; [apply Z.leb_le|apply Z.ltb_lt]; lia.
  - change (10 ^ 10)%Z with 10000000000%Z in Hc. unfold int64_ok. change (2 ^ 63)%Z with 9223372036854775808%Z. apply andb_true_iff. split; [apply Z.leb_le|apply Z.ltb_lt]; lia.
Qed.
Print Assumptions C60_chain.
Example C60_example : Forall drawable [(1, 2, 3, 4); (2, 5, 6, 3)]%Z.
Proof. repeat (apply Forall_cons; [split; [repeat (apply Forall_cons; [lia|]); apply Forall_nil|lia]|]). apply Forall_nil. Qed.
Definition el60 : elem := {| e_num := 1; e_desc := 44; e_phys := 2; e_mat := 1; e_color := 7; e_count := 4; e_beam := (0, 0, 0)%Z; e_nodes := [1; 2; 3; 4]%Z |}.
Definition el61 : elem := {| e_num := 2; e_desc := 41; e_phys := 2; e_mat := 1; e_color := 7; e_count := 3; e_beam := (0, 0, 0)%Z; e_nodes := [1; 2; 3]%Z |}.
(** The hypotheses of [C60_chain] hold for a triangle and a quadrilateral. *)
Example C60_chain_example : map quad_of (with_desc 44 [el61; el60]) = [(1, 2, 3, 4)]%Z /\
  Forall (fun e => 4 <= length (e_nodes e)) (with_desc 44 [el61; el60]) /\ Forall drawable (map quad_of (with_desc 44 [el61; el60])) /\ wf2412 [el61; el60].
Proof.
  split; [vm_compute; reflexivity|]. split; [repeat constructor|]. split.
  - apply Forall_cons; [split; [repeat (apply Forall_cons; [cbn; lia|]); apply Forall_nil|cbn; lia]|]. apply Forall_nil.
  - repeat (apply Forall_cons; [unfold wf_elem, fits; cbn; repeat split; try lia; try discriminate; repeat (apply Forall_cons; [unfold fits; cbn; lia|]); apply Forall_nil|]).
    apply Forall_nil.
Qed.
