(** Histories of [write_sets] calls over all supported types: the file holds
    what replaying the calls on a list of sets gives. *)
From Coq Require Import String List NArith ZArith Bool Lia.
Import ListNotations.
From Verif Require Import PyBase PyNum PyVal Utf8 Tools DsNodes DsHeaders DsGroups Ds55 Ds58 Ds2414 Uff Facts FloatFacts DecFacts FloatText Scan Container Append
  ContainerThms Utf8Facts Lines Stored Cells Rows RtNodes RtCs RtHeads RtElems RtGroups RtNodal RtFun RtFunSet RtAnalysis Witness
  PropNodes PropHeads PropGroups PropNodal PropFun PropAnalysis.
From Coq Require Import Lia.
Open Scope string_scope.
Open Scope list_scope.
Open Scope nat_scope.

(** What a well-formed set of each type says, independently of the dictionary
    that was passed in (see the file of each type). *)
Inductive content :=
| X15 (l : list node) | X18 (l : list cs18) | X55 (r : data55) | X58 (binary : bool) (r : func58) | X82 (t : trace)
| X151 (h : head151) | X164 (u : units) | X1858 (q : qual) | X2400 (h : mhead) | X2411 (l : list node) | X2412 (l : list elem)
| X2414 (a : ana) | X2420 (p : part) | X2429 (g : group) (es : list (Z * Z)) | X2467 (l : list (group * list ent4)).

(** The dictionary [d], written at time [c] with [force_double = fd] as the first
    set of a call in mode [m], states the content [x]. *)
Definition states (c : clock) (m : wmode) (fd : bool) (d : dict) (x : content) : Prop :=
  match x with
  | X15 l => repr15 d l /\ wf15 l
  | X18 l => repr18 d l /\ wf18 l
  | X55 r => repr55 d r /\ wf55 r
  | X58 false r => repr58 fd false d r /\ wf58 r
  | X58 true r => m = Add /\ repr58 fd true d r /\ wf58 r /\ q_dbl r = true /\ (n_bytes58 r < 10 ^ 12)%Z /\ no_delim (payload r)
  | X82 t => repr82 d t /\ wf82 t
  | X151 h => repr151 c d h /\ wf151 h
  | X164 u => repr164 d u /\ wf164 u
  | X1858 q => repr1858 d q /\ wf1858 q
  | X2400 h => repr2400 d h /\ wf2400 h
  | X2411 l => repr2411 d l /\ wf2411 l
  | X2412 l => repr2412 d l /\ wf2412 l
  | X2414 a => repr2414 d a /\ wf2414 a
  | X2420 p => repr2420 d p /\ wf2420 p
  | X2429 g es => repr2429 d g es /\ wf2429 g es
  | X2467 l => repr2467 d l /\ wf2467 l
  end.
Definition type_of (x : content) : Z :=
  match x with
  | X15 _ => 15 | X18 _ => 18 | X55 _ => 55 | X58 _ _ => 58 | X82 _ => 82 | X151 _ => 151 | X164 _ => 164 | X1858 _ => 1858
  | X2400 _ => 2400 | X2411 _ => 2411 | X2412 _ => 2412 | X2414 _ => 2414 | X2420 _ => 2420 | X2429 _ _ => 2429 | X2467 _ => 2467
  end.
(** The dictionary that reading gives ([ho]: headers only, for type 58). *)
Definition reading (ho : bool) (x : content) : dict :=
  match x with
  | X15 l => read15 l | X18 l => read18 l | X55 r => read55 r | X58 b r => read58 b ho r | X82 t => read82 t
  | X151 h => read151 h | X164 u => read164 u | X1858 q => read1858 q | X2400 h => read2400 h | X2411 l => read2411 l
  | X2412 l => read2412 l | X2414 a => read2414 a | X2420 p => read2420 p | X2429 g es => read2429 g es | X2467 l => read2467 l
  end.

Lemma states_faithful : forall c m fd ho d x, states c m fd d x -> faithful c m fd ho d (type_of x) (reading ho x).
Proof.
  intros c m fd ho d x H.
  destruct x as [l|l|r|b r|t|h|u|q|h|l|l|a|p|g es|l]; cbn [states type_of reading] in *;
    try (destruct H as [R W]; eapply text_set_faithful;
         first [apply set15|apply set18|apply set55|apply set82|apply set151|apply set164|apply set1858|apply set2400
               |apply set2411|apply set2412|apply set2414|apply set2420|apply set2429|apply set2467]; assumption).
  destruct b.
  - destruct H as (-> & R & W & Hd & Hn & Hp). apply stored58b; assumption.
  - destruct H as [R W]. eapply text_set_faithful, set58; assumption.
Qed.

(** One block per set that is read back whether or not only headers are asked
    for. *)
Lemma states_block : forall c m fd d x, states c m fd d x ->
  exists b, stored c m fd d b /\ type_in (b_body b) = type_of x /\ forall ho, reads b ho (reading ho x).
Proof.
  intros c m fd d x H.
  destruct (states_faithful c m fd true d x H) as (b & Sb & Rb & Tb).
  destruct (states_faithful c m fd false d x H) as (b' & Sb' & Rb' & Tb').
  exists b. split; [assumption|]. split; [assumption|].
  assert (E : block_bytes b = block_bytes b').
  { destruct Sb as [_ S]. destruct Sb' as [_ S']. specialize (S []). rewrite S' in S. injection S as S. symmetry. exact S. }
  assert (Ex : b_open b ++ b_body b = b_open b' ++ b_body b').
  { destruct Sb as [F _]. destruct Sb' as [F' _].
    assert (E1 := extents_block [] b appendable_nil F). assert (E2 := extents_block [] b' appendable_nil F'). cbn [app length] in E1, E2.
    rewrite E in E1. rewrite E1 in E2. apply app_inv_head in E2. assert (L : length (b_open b) + length (b_body b) = length (b_open b') + length (b_body b')) by (injection E2 as E2; lia).
    unfold block_bytes in E. rewrite !app_assoc in E. rewrite <- !app_length in L.
    apply (f_equal (firstn (length (b_open b ++ b_body b)))) in E. rewrite firstn_app_exact in E by reflexivity. rewrite firstn_app_exact in E by (symmetry; assumption). assumption. }
  intros [|]; [assumption|]. unfold reads in *. rewrite Ex, Tb. rewrite Tb' in Rb'. assumption.
Qed.

(** One call: a non-empty list of dictionaries; the sets after the first are
    appended. *)
Inductive call_states : clock * wmode * bool * list dict -> wmode * list content -> Prop :=
| call_of : forall c m fd d x ds xs, states c m fd d x -> Forall2 (states c Add fd) ds xs ->
    call_states (c, m, fd, d :: ds) (m, x :: xs).
(** Replaying: overwriting replaces, adding appends. *)
Definition step (held : list content) (call : wmode * list content) : list content :=
  match fst call with Overwrite => snd call | Add => held ++ snd call end.
Definition replay (calls : list (wmode * list content)) : list content := fold_left step calls [].

Definition blocks_for (bs : list block) (xs : list content) : Prop :=
  Forall2 (fun b x => framed b /\ type_in (b_body b) = type_of x /\ forall ho, reads b ho (reading ho x)) bs xs.

Lemma blocks_framed : forall bs xs, blocks_for bs xs -> Forall framed bs.
Proof. intros bs xs H. induction H as [|b x bs xs (F & _) _ IH]; constructor; assumption. Qed.

Lemma list_blocks : forall c fd ds xs, Forall2 (states c Add fd) ds xs ->
  exists bs, Forall2 (stored c Add fd) ds bs /\ blocks_for bs xs.
Proof.
  intros c fd ds xs H. induction H as [|d x ds xs Hx _ (bs & H1 & H2)].
  - exists []. split; constructor.
  - destruct (states_block _ _ _ _ _ Hx) as (b & Sb & Tb & Rb). exists (b :: bs). split; constructor; auto.
    destruct Sb. auto.
Qed.

Lemma call_blocks : forall call xs, call_states call xs ->
  exists bs, (let '(c, m, fd, ds) := call in stored_list c m fd ds bs) /\ blocks_for bs (snd xs) /\
             (let '(c, m, fd, ds) := call in fst xs = m).
Proof.
  intros call xs [c m fd d x ds ys Hx Hs]. destruct (states_block _ _ _ _ _ Hx) as (b & Sb & Tb & Rb).
  destruct (list_blocks _ _ _ _ Hs) as (bs & H1 & H2). exists (b :: bs). cbn [fst snd].
  split; [split; [discriminate|auto]|]. split; [|reflexivity]. constructor; [destruct Sb; auto|assumption].
Qed.

Lemma run_hist_blocks : forall h cs, Forall2 call_states h cs -> forall bs xs u,
  blocks_for bs xs -> (bs = [] \/ u = view (file_of bs)) ->
  exists bs', blocks_for bs' (fold_left step cs xs) /\
    (h = [] /\ bs' = bs \/
     bs' <> [] /\ run_hist h (match bs with [] => None | _ => Some (file_of bs) end) u = (Some (file_of bs'), view (file_of bs'), None)).
Proof.
  intros h cs H. induction H as [|call ys h cs Hc Hrest IH]; intros bs xs u Hb Hu.
  - exists bs. split; [exact Hb|]. left. auto.
  - destruct call as [[[c m] fd] ds]. destruct (call_blocks _ _ Hc) as (ns & Hs & Hn & Hm).
    destruct (write_sets_stored c m fd ds ns bs u Hs (blocks_framed _ _ Hb)) as (Hw & Hf & Hne).
    assert (Hstep : blocks_for (replay1 m bs ns) (step xs ys)).
    { destruct ys as [m' ys]. cbn [fst snd] in *. subst m'. unfold step. cbn [fst snd]. destruct m; cbn [replay1]; [exact Hn|]. apply Forall2_app; assumption. }
    destruct (IH (replay1 m bs ns) (step xs ys) (view (file_of (replay1 m bs ns))) Hstep (or_intror eq_refl)) as (bs' & H1 & H2).
    exists bs'. split; [exact H1|]. right. cbn [run_hist]. rewrite Hw.
    destruct H2 as [[-> ->]|[H2 H3]].
    + split; [assumption|reflexivity].
    + split; [assumption|]. destruct (replay1 m bs ns) as [|b0 r0]; [congruence|]. exact H3.
Qed.

(** C05: after any history of calls, started without a file by any object, no
    call has failed and the object reports and reads exactly the replayed list of
    sets: their number, their types, all of them in order, each one by its
    index.  A new object on the file is in the same state. *)
Theorem C05_history : forall h cs u0, Forall2 call_states h cs -> h <> [] ->
  exists file u, run_hist h None u0 = (Some file, u, None) /\
    uff_new (Some file) = Ok u /\
    get_n_sets (Some file) u = Ok (u, length (replay cs)) /\
    get_set_types (Some file) u = Ok (u, map type_of (replay cs)) /\
    forall ho,
      read_sets (Some file) u SelAll ho = Ok (u, shape_result (map (reading ho) (replay cs))) /\
      (forall i x, nth_error (replay cs) i = Some x -> read_sets (Some file) u (SelOne (Z.of_nat i)) ho = Ok (u, One (reading ho x))).
Proof.
  intros h cs u0 H Hne.
  destruct (run_hist_blocks h cs H [] [] u0 (Forall2_nil _) (or_introl eq_refl)) as (bs & Hb & [[E _]|[Hn Hr]]); [congruence|].
  change (fold_left step cs []) with (replay cs) in Hb.
  assert (Hf := blocks_framed _ _ Hb).
  assert (Hrd : forall ho, Forall2 (fun b o => reads b ho o) bs (map (reading ho) (replay cs))).
  { intro ho. clear -Hb. induction Hb as [|b x bs xs (_ & _ & Hx) _ IH]; constructor; auto. }
  assert (Hty : map (fun b => type_in (b_body b)) bs = map type_of (replay cs)).
  { clear -Hb. induction Hb as [|b x bs xs (_ & Hx & _) _ IH]; [reflexivity|]. cbn [map]. rewrite Hx, IH. reflexivity. }
  exists (file_of bs), (view (file_of bs)). split; [exact Hr|]. split; [apply uff_new_view|].
  destruct (read_blocks bs true _ Hf (Hrd true)) as (_ & _ & Hns & Hts). rewrite map_length in Hns.
  split. { unfold get_n_sets. rewrite sync_view. cbn [rbind]. rewrite Hns. reflexivity. }
  split. { unfold get_set_types. rewrite sync_view. cbn [rbind]. rewrite Hts, Hty. reflexivity. }
  intro ho. destruct (read_blocks bs ho _ Hf (Hrd ho)) as (Ha & Hi & _). split; [exact Ha|].
  intros i x Hx. apply Hi. rewrite nth_error_map, Hx. reflexivity.
Qed.
Print Assumptions C05_history.
(** A history that uses all fifteen types, both modes and both forms of 58. *)
Definition es2429 : list (Z * Z) := [(8, 1); (7, -1234); (8, -3); (8, 999999999); (8, 1)]%Z.
Definition h_ex : hist :=
  [(noclock, Add, true, [d164; d15; d2414_freq]);
   (noclock, Overwrite, false, [d151; d164; d58_even; d2400]);
   (noclock, Add, true, [d58_bin; d15; d18; d55_normal; d58_uneven; d82]);
   (noclock, Add, false, [d2429 es2429]);
   (noclock, Add, true, [d1858; d2411; d2412; d2414_on; d2420; d2467; d55_complex; d2414_nodes])].
Definition x_ex : list (wmode * list content) :=
  [(Add, [X164 u164; X15 r15; X2414 a2414_freq]);
   (Overwrite, [X151 h151; X164 u164; X58 false r58_even; X2400 h2400]);
   (Add, [X58 true r58_uneven; X15 r15; X18 r18; X55 r55_normal; X58 false r58_uneven; X82 t82]);
   (Add, [X2429 g2429 es2429]);
   (Add, [X1858 q1858; X2411 r2411; X2412 l2412; X2414 a2414_on; X2420 p2420; X2467 l2467; X55 r55_complex; X2414 a2414_nodes])].
Example C05_example : Forall2 call_states h_ex x_ex.
Proof.
  assert (B := C28_example).
  repeat first [apply Forall2_cons | apply Forall2_nil | apply call_of]; cbn [states];
    first [exact C38_example | exact C23_example | exact C45_example_freq | exact C36_example | exact C27_example_even | exact C41_example
          | exact C24_example | exact C25_example_normal | exact C27_example_uneven | exact C34_example | exact C50_example
          | exact C39_example | exact C42_example | exact C43_example | exact C45_example_on | exact C48_example | exact C51_example
          | exact C25_example_complex | exact C45_example_nodes | (split; [reflexivity|exact B])].
Qed.
Example C05_example_types : map type_of (replay x_ex) =
  [151; 164; 58; 2400; 58; 15; 18; 55; 58; 82; 2429; 1858; 2411; 2412; 2414; 2420; 2467; 55; 2414]%Z.
Proof. reflexivity. Qed.
