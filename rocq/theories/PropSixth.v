(** Properties C46 and C48: a real that is too long, in any place of its record;
    coordinate systems without types or colours. *)
From Coq Require Import String List NArith ZArith Bool Lia.
Import ListNotations.
From Verif Require Import PyBase PyNum PyVal Utf8 Tools DsNodes DsHeaders DsGroups Ds55 Ds2414 Uff Facts IntFacts FloatFacts DecFacts FloatText FloatExact CplxFacts DictFacts
  Scan Container Append ContainerThms Utf8Facts Lines Stored Cells Rows RtNodes RtCs RtHeads RtElems RtGroups RtNodal RtAnalysis PropNearest PropNumeral PropAnalysis Witness.
From Verif Require Import PropNodes Accept PropAccept PropNegative.
From Coq Require Import Lia.
Open Scope string_scope.
Open Scope list_scope.
Open Scope nat_scope.

(** ** C46 *)

Lemma column_own : forall l1 f l2 z, Forall w11 l1 -> okfin f -> length l1 < 6 ->
  column (gline (l1 ++ f :: l2) ++ z) w13 (length l1) = firstn 11 (printed f).
Proof.
  intros l1 f l2 z H1 [Hv Hf] Hl. rewrite column13 by lia. destruct (printed_len f Hv Hf) as (L & _).
  rewrite gline_app, !gline_cons, <- !app_assoc. rewrite <- (glen l1) by exact H1. rewrite skipn_app_exact by reflexivity.
  unfold gtext. fold (printed f).
  change (firstn 13 ((blank :: blank :: printed f) ++ ?x)) with ([blank; blank] ++ firstn 11 (printed f ++ x)). rewrite firstn_app. replace (11 - length (printed f)) with 0 by lia.
  rewrite firstn_O, app_nil_r. unfold strip. rewrite strip_by_pre by reflexivity. apply strip_by_nonws.
  assert (W := proj2 (fmt_e_nonws false 5 f)). fold (printed f) in W. rewrite <- (firstn_skipn 11 (printed f)), forallb_app in W. apply andb_true_iff in W. apply W.
Qed.
(** The reals before it take eleven characters. *)
Definition stands_at (i : nat) (f : float) (l : list float) : Prop := exists l1 l2, l = l1 ++ f :: l2 /\ length l1 = i /\ Forall w11 l1.
(** Other kinds of data than a frequency response, with finite reals: every real
    of record 12 or 13 up to the first that is too long, and this one as well, is
    read as the number that its first eleven characters spell. *)
Theorem C46_cut_refuted : forall c m fd ho d a i k f, repr2414 d a -> wfw2414 a -> wf_body (n_nv a) (n_body a) -> is_freq (n_body a) = false ->
  Forall okfin (n_r12 a) -> Forall okfin (n_r13 a) -> i < 6 ->
  (stands_at i f (n_r12 a) /\ nth_error other12 i = Some k \/ stands_at i f (n_r13 a) /\ nth_error other13 i = Some k) ->
  exists out g, round_trips c m fd ho d out /\ dget out (KS k) = Some (VFloat g) /\ py_float (firstn 11 (printed f)) = Ok g.
Proof.
  intros c m fd ho d a i k f R W Wb Hf F12 F13 Hi Hw. destruct (recsn_read d a R W Hf F12 F13) as (d' & Hd & Hl & G12 & G13).
  assert (Of : okfin f).
  { destruct Hw as [[(l1 & l2 & E & _) _]|[(l1 & l2 & E & _) _]]; [rewrite E in F12; clear F13|rewrite E in F13; clear F12; rename F13 into F12];
      apply Forall_app in F12 as [_ F12]; inversion F12; assumption. }
  destruct (printed_prefix f (proj1 Of) (proj2 Of)) as (g & Hg).
  assert (K : kind_ok a) by apply W. exists (dupdate d' (out_body (n_nv a) (n_dt a) (n_body a))), g. split; [|split; [|exact Hg]].
  - destruct (stored_w c m fd d a R W) as (b & Hs & Hr). eapply stored_round_trips; [exact Hs|]. unfold reads. rewrite Hr. unfold after_head.
    assert (Hn : (n_an a =? 5)%Z = false) by (apply Z.eqb_neq; unfold kind_ok in K; destruct (n_body a); try discriminate Hf; apply K).
    rewrite Hn, Hd. cbn [rbind]. rewrite (loc_read d' a (n_nv a) (n_dt a)); [reflexivity|assumption|assumption|assumption|assumption|].
    unfold steps. rewrite map_length. cbn [length]. rewrite app_length. lia.
  - assert (E : dget d' (KS k) = Some (VFloat g)).
    { destruct Hw as [[Hw Hk]|[Hw Hk]]; [rewrite (G12 i k) by assumption|rewrite (G13 i k) by assumption];
        destruct Hw as (l1 & l2 & -> & <- & H1); unfold opt_val, field_val; cbn [Z.eqb Pos.eqb]; rewrite column_own by assumption; rewrite Hg; reflexivity. }
    assert (Hk : In k (other12 ++ other13)) by (apply in_or_app; destruct Hw as [[_ Hk]|[_ Hk]]; apply nth_error_In in Hk; auto).
    assert (N : NoDup (map fst (out_body (n_nv a) (n_dt a) (n_body a))) /\ dget (out_body (n_nv a) (n_dt a) (n_body a)) (KS k) = None).
    { destruct (n_body a); try discriminate Hf; cbn [out_body map fst]; (split; [nodup|]);
        (cbn in Hk; repeat (destruct Hk as [<-|Hk]; [reflexivity|]); contradiction). }
    destruct N as [N1 N2]. rewrite dget_dupdate by exact N1. rewrite N2. exact E.
Qed.
Print Assumptions C46_cut_refuted.
(** -250 as the last real of record 13 is read as -2.5. *)
Definition d2414_last : dict := Eval vm_compute in put d2414_nodes "record13_field6" (fv "-250").
Definition a2414_last : ana := Eval vm_compute in
  a2414 1 1 2 3 [0; 7; 0; 0; 0; 0; 0; 0]%Z [0; 0; 0; 0; 0; 0; 0; 0]%Z (fl "0.25" :: skipn 1 zeros6) (firstn 5 zeros6 ++ [fl "-250"])
   (ANodes [(1, [fl "-1.5"; fl "2"; fl "3"]); (22, [])]%Z).
Example C46_cut_example : repr2414 d2414_last a2414_last /\ wfw2414 a2414_last /\ wf_body (n_nv a2414_last) (n_body a2414_last) /\
  is_freq (n_body a2414_last) = false /\ Forall okfin (n_r12 a2414_last) /\ Forall okfin (n_r13 a2414_last) /\ stands_at 5 (fl "-250") (n_r13 a2414_last) /\
  nth_error other13 5 = Some "record13_field6" /\ py_float (firstn 11 (printed (fl "-250"))) = Ok (fl "-2.5").
Proof.
  split; [|split; [|split; [|split; [|split; [|split; [|split; [|split]]]]]]].
  - repr2414_tac d2414_last a2414_last. split; [wit_arr|]. eexists; split; [vm_compute; reflexivity|]; wit_deep.
  - wfw2414_tac a2414_last. split; [split; [discriminate|reflexivity]|]. wit.
  - cbn [a2414_last n_body n_nv wf_body]. split; [discriminate|]. unfold w12; wit; vm_compute; lia.
  - reflexivity.
  - repeat constructor.
  - repeat constructor.
  - exists (firstn 5 (n_r13 a2414_last)), []. split; [vm_compute; reflexivity|]. split; [reflexivity|]. repeat constructor.
  - reflexivity.
  - vm_compute. reflexivity.
Qed.

(** ** C48 *)

(** Without types, or without colours, only sets of one system can be written. *)
Theorem C48_defaults_general_refuted : forall c m fd file u d v l, dget d (KS "type") = Some (VInt 2420) -> dget d (KS "data") = None ->
  dget d (KS "CS_sys_labels") = Some v -> entries v = Some l -> length l <> 1 -> dget d (KS "CS_types") = None \/ dget d (KS "CS_colors") = None ->
  w_exc (write_set c m fd file u d) <> None.
Proof.
  intros c m fd file u d v l Ht Hd Hv Hl Hn Hm E. apply (C72_2420 _ _ _ _ _ _ Ht Hd) in E as (_ & n & F). unfold table2420, fields in F. cbn [map app] in F.
  inversion F as [|? ? F1 F']; subst. inversion F' as [|? ? F2 F'']; subst. inversion F'' as [|? ? F3 _]; subst. unfold exact_ok in F1, F2, F3. cbn [fst snd] in F1, F2, F3.
  rewrite Hv in F1. destruct F1 as (l' & El & Ll & _). rewrite Hl in El. injection El as <-.
  destruct Hm as [Hm|Hm]; rewrite Hm in *; [destruct F2|destruct F3]; congruence.
Qed.
Print Assumptions C48_defaults_general_refuted.
Example C48_defaults_general_example : let d := filter (fun kv => negb (key_eqb (fst kv) (KS "CS_types"))) d2420 in
  dget d (KS "type") = Some (VInt 2420) /\ dget d (KS "data") = None /\ (exists v l, dget d (KS "CS_sys_labels") = Some v /\ entries v = Some l /\ length l = 2) /\ dget d (KS "CS_types") = None.
Proof. cbv zeta. split; [reflexivity|]. split; [reflexivity|]. split; [eexists _, _; split; [vm_compute; reflexivity|]; split; reflexivity|reflexivity]. Qed.
