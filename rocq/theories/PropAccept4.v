(** Property C72 for type 55.  The first component [r1] is an array. *)
From Coq Require Import String List NArith ZArith Bool QArith Lia.
Import ListNotations.
From Verif Require Import PyBase PyNum PyVal Utf8 Tools Facts IntFacts QFacts FloatFacts FloatText DictFacts DsNodes DsHeaders DsGroups Ds55 Ds2414 Uff
  Container Append Utf8Facts Lines Cells PropNumeral Accept Witness PropCaller PropAccept PropAccept2 PropAccept3.
From Coq Require Import Lia.
Open Scope string_scope.
Open Scope list_scope.
Open Scope nat_scope.

Definition head55 := fields May Text ["id1"; "id2"; "id3"; "id4"; "id5"] ++ fields May Int ["model_type"] ++ fields Must Int ["analysis_type"; "data_ch"; "spec_data_type"].
Definition mode55 := fields Must Int ["load_case"; "mode_n"] ++ fields Must Real ["freq"] ++ fields May Real ["modal_m"; "modal_damp_vis"; "modal_damp_his"].
Definition freq55 := fields Must Int ["load_case"; "freq_step_n"] ++ fields Must Real ["freq"].
Definition cplx_mode55 := fields Must Int ["load_case"; "mode_n"] ++ fields Must Number ["eig"] ++ fields May Number ["modal_a"; "modal_b"].
(** The fields of each analysis type that can be written. *)
Definition analyses : list (Z * list (string * kind * need)) := [(2, mode55); (3, cplx_mode55); (5, freq55); (7, cplx_mode55)]%Z.
Definition responses (d : dict) (dt : dtype) : list (string * kind * need) :=
  match dt with
  | DCplx => fields Must Number ["r1"; "r2"; "r3"]
  | _ => match dget d (KS "r4"), dget d (KS "r5"), dget d (KS "r6") with
         | Some _, Some _, Some _ => fields Must Real ["r1"; "r2"; "r3"; "r4"; "r5"; "r6"]
         | _, _, _ => fields Must Real ["r1"; "r2"; "r3"]
         end
  end.
Definition modal_ok (d : dict) (dt : dtype) : Prop := Forall (field_ok d) head55
  /\ (exists v k t, dget d (KS "analysis_type") = Some v /\ In (k, t) analyses /\ equals v k /\ Forall (field_ok d) t)
  /\ exists n, counted d "node_nums" n /\ (n = 0 \/ Forall (column_ok d n) (fields Must Int ["node_nums"] ++ responses d dt)).

(* ------------------------------------------------------------------ *)
(** ** Proof *)

Definition must (t : list (string * kind * need)) : list (string * kind * need) := map (fun f => (fst f, Must)) t.
Definition over (defs d e : dict) : Prop := forall k, dget e (KS k) = match dget d (KS k) with Some v => Some v | None => dget defs (KS k) end.
Definition covers (defs : dict) (f : string * kind * need) : Prop :=
  match snd f, dget defs (KS (fst (fst f))) with Must, None => True | May, Some v => takes (snd (fst f)) v | _, _ => False end.
Lemma over_field : forall defs d e f, over defs d e -> covers defs f -> (field_ok e (fst f, Must) <-> field_ok d f).
Proof.
  intros defs d e [[nm k] nd] H C. unfold covers in C. unfold field_ok. cbn [fst snd] in *. rewrite (H nm). destruct (dget d (KS nm)) as [v|]; [reflexivity|].
  destruct nd, (dget defs (KS nm)) as [w|]; try contradiction; [split; discriminate|]. tauto.
Qed.
Lemma over_fields : forall defs d e t, over defs d e -> Forall (covers defs) t -> (Forall (field_ok e) (must t) <-> Forall (field_ok d) t).
Proof.
  intros defs d e t H C. unfold must. rewrite List.Forall_map. rewrite Forall_forall in C. rewrite !Forall_forall.
  split; intros F f Hf; apply (over_field defs d e f H (C f Hf)), F, Hf.
Qed.
Lemma over_opt : forall d defs, over defs d (opt_fields d defs).
Proof. intros d defs k. apply opt_fields_get. Qed.
Lemma dget_app : forall a b k, dget (a ++ b) k = match dget a k with Some v => Some v | None => dget b k end.
Proof. induction a as [|[k0 v0] a IH]; intros b k; [reflexivity|]. cbn [app dget]. destruct (key_eqb k k0); [reflexivity|apply IH]. Qed.
Lemma over_opt2 : forall d a b, over (a ++ b) d (opt_fields (opt_fields d a) b).
Proof. intros d a b k. rewrite !opt_fields_get, dget_app. destruct (dget d (KS k)); [reflexivity|]. destruct (dget a (KS k)); reflexivity. Qed.

Definition top55 (e : dict) (a b : Z) : list item :=
  hdr_lines 55 :: map (fun k => txt "%-80s\n" [ix e k]) ["id1"; "id2"; "id3"; "id4"; "id5"]
  ++ [txt "%10i%10i%10i%10i%10i%10i\n" [ix e "model_type"; ix e "analysis_type"; ix e "data_ch"; ix e "spec_data_type"; Tools.I a; Tools.I b]].
Lemma top55_iff : forall e a b, Forall ok_item (top55 e a b) <-> Forall (field_ok e) (must head55).
Proof.
  intros e a b. apply (scalar_plan0 (fun e => top55 e a b) e (HDR 55 :: map (fun k => ("%-80s\n", [SField k])) ["id1"; "id2"; "id3"; "id4"; "id5"]
    ++ [("%10i%10i%10i%10i%10i%10i\n", map SField ["model_type"; "analysis_type"; "data_ch"; "spec_data_type"] ++ [SConst (VInt a); SConst (VInt b)])])); [intro; reflexivity|vm_compute; reflexivity].
Qed.
Lemma rec2_iff : forall e, Forall ok_item (recs7_8 e 2) <-> Forall (field_ok e) (must mode55).
Proof.
  intro e. apply (scalar_plan0 (fun e => recs7_8 e 2) e [("%10i%10i%10i%10i\n", [SConst (VInt 2); SConst (VInt 4); SField "load_case"; SField "mode_n"]);
    ("%13.5e%13.5e%13.5e%13.5e\n", map SField ["freq"; "modal_m"; "modal_damp_vis"; "modal_damp_his"])]); [intro; reflexivity|vm_compute; reflexivity].
Qed.
Lemma rec5_iff : forall e, Forall ok_item (recs7_8 e 5) <-> Forall (field_ok e) (must freq55).
Proof.
  intro e. apply (scalar_plan0 (fun e => recs7_8 e 5) e [("%10i%10i%10i%10i\n", [SConst (VInt 2); SConst (VInt 1); SField "load_case"; SField "freq_step_n"]);
    ("%13.5e\n", [SField "freq"])]); [intro; reflexivity|vm_compute; reflexivity].
Qed.
Lemma rec37_iff : forall e k, k = 3%Z \/ k = 7%Z -> (Forall ok_item (recs7_8 e k) <-> Forall (field_ok e) (must cplx_mode55)).
Proof.
  intros e k Hk. assert (E : recs7_8 e k = [txt "%10i%10i%10i%10i\n" [Tools.I 2; Tools.I 6; ix e "load_case"; ix e "mode_n"];
      txt "%13.5e%13.5e%13.5e%13.5e%13.5e%13.5e\n" [real_of (ix e "eig"); imag_of (ix e "eig"); real_of (ix e "modal_a"); imag_of (ix e "modal_a"); real_of (ix e "modal_b"); imag_of (ix e "modal_b")]])
    by (destruct Hk as [->| ->]; reflexivity).
  rewrite E. clear E Hk. rewrite !Forall_cons_iff, !ok_txt. change (parse_fmt SNorm "%10i%10i%10i%10i\n") with (repeat (FInt 10) 4 ++ [FLit LF]).
  change (parse_fmt SNorm "%13.5e%13.5e%13.5e%13.5e%13.5e%13.5e\n") with (repeat (FExp 13 5) 6 ++ [FLit LF]). cbn [repeat app fits kind_of].
  unfold must, cplx_mode55, fields. cbn [map app fst]. rewrite !Forall_cons_iff, <- !good_ix, !good_re. unfold Tools.I. rewrite !good_ok.
  assert (S : scalar LF) by (left; reflexivity). cbn [takes integral]. split.
  - intros ((_ & _ & A1 & A2 & _) & (B1 & _ & B2 & _ & B3 & _ & _) & _). repeat split; auto.
  - intros (A1 & A2 & B1 & B2 & B3 & _). repeat split; auto using good_im.
Qed.
Lemma nodes55_iff : forall e cplx six n, Forall ok_item (flat_map (node55 e cplx six) (map Z.of_nat (seq 0 n))) <->
  n = 0 \/ Forall (column_ok e n) (fields Must Int ["node_nums"] ++ (if cplx then fields Must Number ["r1"; "r2"; "r3"] else
    if six then fields Must Real ["r1"; "r2"; "r3"; "r4"; "r5"; "r6"] else fields Must Real ["r1"; "r2"; "r3"])).
Proof.
  intros e cplx six n. destruct cplx; [|destruct six].
  - apply (col_plan (fun e => node55 e true six) e [] [] n [("%10i\n", [SCol "node_nums"]); ("%13.5e%13.5e%13.5e%13.5e%13.5e%13.5e\n", [SRe "r1"; SIm "r1"; SRe "r2"; SIm "r2"; SRe "r3"; SIm "r3"])]);
      [reflexivity|constructor|vm_compute; reflexivity].
  - apply (col_plan (fun e => node55 e false true) e [] [] n [("%10i\n", [SCol "node_nums"]); ("%13.5e%13.5e%13.5e%13.5e%13.5e%13.5e\n", map SCol ["r1"; "r2"; "r3"; "r4"; "r5"; "r6"])]);
      [reflexivity|constructor|vm_compute; reflexivity].
  - apply (col_plan (fun e => node55 e false false) e [] [] n [("%10i\n", [SCol "node_nums"]); ("%13.5e%13.5e%13.5e\n", map SCol ["r1"; "r2"; "r3"])]);
      [reflexivity|constructor|vm_compute; reflexivity].
Qed.
(** All items, on the dictionary as completed. *)
Definition six55 (e : dict) : bool := dmem e (KS "r4") && dmem e (KS "r5") && dmem e (KS "r6").
Definition items55 (e : dict) (k : Z) : list item :=
  match (do v <- ix e "r1" ;; np_iscomplex v) with
  | Err ex => [WTxt (Err ex)]
  | Ok cplx => top55 e (if cplx then 5 else 2) (if six55 e then 6 else 3) ++ recs7_8 e k
      ++ match (do v <- ix e "node_nums" ;; py_len v) with
         | Err ex => [WTxt (Err ex)]
         | Ok n => flat_map (node55 e cplx (six55 e)) (map Z.of_nat (seq 0 n)) ++ [end_line]
         end
  end.
Lemma six_responses : forall e dt, fields Must Int ["node_nums"] ++ (if match dt with DCplx => true | _ => false end then fields Must Number ["r1"; "r2"; "r3"] else
    if six55 e then fields Must Real ["r1"; "r2"; "r3"; "r4"; "r5"; "r6"] else fields Must Real ["r1"; "r2"; "r3"]) = fields Must Int ["node_nums"] ++ responses e dt.
Proof.
  intros e dt. f_equal. unfold responses, six55, dmem. destruct dt; destruct (dget e (KS "r4")), (dget e (KS "r5")), (dget e (KS "r6")); reflexivity.
Qed.
Lemma items55_iff : forall e k dt l, dget e (KS "r1") = Some (VArr dt l) ->
  (Forall ok_item (items55 e k) <-> Forall (field_ok e) (must head55) /\ Forall ok_item (recs7_8 e k)
    /\ exists n, counted e "node_nums" n /\ (n = 0 \/ Forall (column_ok e n) (fields Must Int ["node_nums"] ++ responses e dt))).
Proof.
  intros e k dt l Hr. unfold items55. unfold ix at 1. rewrite Hr. cbn [of_option rbind].
  assert (E : np_iscomplex (VArr dt l) = Ok (match dt with DCplx => true | _ => false end)) by (destruct dt; reflexivity). rewrite E. clear E.
  rewrite !Forall_app, top55_iff, <- (six_responses e dt). apply and_iff_compat_l, and_iff_compat_l.
  destruct (do v <- ix e "node_nums" ;; py_len v) as [n|ex] eqn:En.
  - rewrite Forall_snoc, ok_end, nodes55_iff. split.
    + intros [H _]. exists n. split; [apply counted_len; exact En|exact H].
    + intros (n' & Hn & H). apply counted_len in Hn. rewrite En in Hn. injection Hn as <-. split; [exact H|exact Logic.I].
  - split; [intro H; apply not_ok1 in H; destruct H|]. intros (n & Hn & _). apply counted_len in Hn. congruence.
Qed.
Definition col_names55 := ["node_nums"; "r1"; "r2"; "r3"; "r4"; "r5"; "r6"].
Definition cols_ok (d : dict) (dt : dtype) : Prop := exists n, counted d "node_nums" n /\ (n = 0 \/ Forall (column_ok d n) (fields Must Int ["node_nums"] ++ responses d dt)).
Lemma cols_same : forall d e dt, (forall k, In k col_names55 -> dget e (KS k) = dget d (KS k)) -> (cols_ok e dt <-> cols_ok d dt).
Proof.
  intros d e dt H. unfold cols_ok, counted.
  assert (R : responses e dt = responses d dt).
  { unfold responses. rewrite (H "r4"), (H "r5"), (H "r6") by (cbn; tauto). reflexivity. }
  rewrite R, (H "node_nums") by (cbn; tauto).
  assert (I : forall f, In f (fields Must Int ["node_nums"] ++ responses d dt) -> In (fst (fst f)) col_names55).
  { intros f Hf. apply in_app_or in Hf as [Hf|Hf].
    - cbn in Hf. destruct Hf as [<-|[]]. cbn. tauto.
    - unfold responses in Hf. destruct dt; try (destruct (dget d (KS "r4")), (dget d (KS "r5")), (dget d (KS "r6"))); cbn in Hf; intuition (subst; cbn; tauto). }
  assert (X : forall n, Forall (column_ok e n) (fields Must Int ["node_nums"] ++ responses d dt) <-> Forall (column_ok d n) (fields Must Int ["node_nums"] ++ responses d dt)).
  { intro n. rewrite !Forall_forall. split; intros F f Hf; specialize (F f Hf); unfold column_ok in *; [rewrite <- (H _ (I f Hf))|rewrite (H _ (I f Hf))]; exact F. }
  split; intros (n & A & [B|B]); exists n; (split; [exact A|]); [left; exact B|right; apply X; exact B|left; exact B|right; apply X; exact B].
Qed.
Lemma finish : forall d e k t dt l, dget d (KS "r1") = Some (VArr dt l) -> (forall k, In k col_names55 -> dget e (KS k) = dget d (KS k)) ->
  (Forall (field_ok e) (must head55) <-> Forall (field_ok d) head55) -> (Forall ok_item (recs7_8 e k) <-> Forall (field_ok d) t) ->
  (Forall ok_item (items55 e k) <-> Forall (field_ok d) head55 /\ Forall (field_ok d) t /\ cols_ok d dt).
Proof.
  intros d e k t dt l Hr Hc Hh Ht. rewrite <- (Hc "r1" ltac:(cbn; tauto)) in Hr. rewrite (items55_iff e k dt l Hr), Hh, Ht. change (exists n, _ /\ _) with (cols_ok e dt) at 1.
  rewrite (cols_same d e dt Hc). reflexivity.
Qed.
(** [v + 0.j] *)
Lemma add_0j_iff : forall v, (exists a, add_0j v = Ok a /\ takes Number a) <-> takes Number v.
Proof.
  intro v. split.
  - intros (a & H & Ha). unfold add_0j in H. destruct (np_iscomplex v) as [[]|]; cbn [rbind] in H; [injection H as <-; exact Ha| |discriminate].
    destruct v; try discriminate; try exact Logic.I. cbn [takes]. apply (real_iff (VInt z)). destruct (fmt_float_arg (VInt z)) as [f|]; [eauto|discriminate].
  - intro H. unfold add_0j. destruct v; try (exfalso; exact H); cbn [np_iscomplex rbind].
    + destruct b; (eexists; split; [reflexivity|exact Logic.I]).
    + cbn [takes] in H. apply (real_iff (VInt z)) in H as [f Hf]. rewrite Hf. cbn [rbind]. eexists. split; [reflexivity|exact Logic.I].
    + eexists. split; [reflexivity|exact Logic.I].
    + eexists. split; [reflexivity|exact Logic.I].
Qed.

Lemma items_eq : forall d, wp_items (write55 d) = match prep55 d with (e, Ok k) => items55 e k | (_, Err ex) => [WTxt (Err ex)] end.
Proof.
  intro d. unfold write55. destruct (prep55 d) as [e [k|ex]]; cbn [wp_items]; [|reflexivity]. unfold items55. destruct (do v <- ix e "r1" ;; np_iscomplex v) as [cplx|]; [|reflexivity].
  unfold top55. unfold six55. cbn [map app]. reflexivity.
Qed.
Lemma forall_covers : forall defs t, (forall f, In f t -> covers defs f) -> Forall (covers defs) t.
Proof. intros. apply Forall_forall. assumption. Qed.
Ltac cover := unfold head55, mode55, freq55, fields; cbn [map app]; repeat (apply Forall_cons; [first [exact Logic.I|exact (lits_writable "NONE")|exact (eq_refl Lt)]|]); apply Forall_nil.
Lemma case2 : forall d dt l, dget d (KS "r1") = Some (VArr dt l) ->
  (Forall ok_item (items55 (opt_fields (opt_fields d base55) real55) 2) <-> Forall (field_ok d) head55 /\ Forall (field_ok d) mode55 /\ cols_ok d dt).
Proof.
  intros d dt l Hr. pose proof (over_opt2 d base55 real55) as O. revert O. generalize (opt_fields (opt_fields d base55) real55). intros e O.
  apply (finish d e 2 mode55 dt l Hr).
  - intros k Hk. rewrite (O k). assert (N : dget (base55 ++ real55) (KS k) = None) by (cbn in Hk; repeat (destruct Hk as [<-|Hk]; [reflexivity|]); destruct Hk).
    rewrite N. destruct (dget d (KS k)); reflexivity.
  - apply (over_fields (base55 ++ real55)); [exact O|]. cover.
  - rewrite rec2_iff. apply (over_fields (base55 ++ real55)); [exact O|]. cover.
Qed.
Lemma case5 : forall d dt l, dget d (KS "r1") = Some (VArr dt l) ->
  (Forall ok_item (items55 (opt_fields d base55) 5) <-> Forall (field_ok d) head55 /\ Forall (field_ok d) freq55 /\ cols_ok d dt).
Proof.
  intros d dt l Hr. pose proof (over_opt d base55) as O. revert O. generalize (opt_fields d base55). intros e O.
  apply (finish d e 5 freq55 dt l Hr).
  - intros k Hk. rewrite (O k). assert (N : dget base55 (KS k) = None) by (cbn in Hk; repeat (destruct Hk as [<-|Hk]; [reflexivity|]); destruct Hk).
    rewrite N. destruct (dget d (KS k)); reflexivity.
  - apply (over_fields base55); [exact O|]. cover.
  - rewrite rec5_iff. apply (over_fields base55); [exact O|]. cover.
Qed.
Definition put_ab (e : dict) (k : Z) : list item :=
  match (do v <- ix e "modal_a" ;; add_0j v) with
  | Err ex => [WTxt (Err ex)]
  | Ok a => let e2 := dput e (KS "modal_a") a in
      match (do v <- ix e2 "modal_b" ;; add_0j v) with
      | Err ex => [WTxt (Err ex)]
      | Ok b => items55 (dput e2 (KS "modal_b") b) k
      end
  end.
Lemma case37 : forall d k dt l, k = 3%Z \/ k = 7%Z -> dget d (KS "r1") = Some (VArr dt l) ->
  (Forall ok_item (put_ab (opt_fields (opt_fields d base55) cplx55) k) <-> Forall (field_ok d) head55 /\ Forall (field_ok d) cplx_mode55 /\ cols_ok d dt).
Proof.
  intros d k dt l Hk Hr. pose proof (over_opt2 d base55 cplx55) as O. revert O. generalize (opt_fields (opt_fields d base55) cplx55). intros e O.
  assert (A : forall nm, nm = "modal_a" \/ nm = "modal_b" -> (field_ok d (nm, Number, May) <-> good Number (ix e nm))).
  { intros nm Hn. rewrite good_ix. symmetry. apply (over_field (base55 ++ cplx55) d e (nm, Number, May) O). destruct Hn as [->| ->]; exact Logic.I. }
  assert (G : forall nm, good Number (ix e nm) <-> exists a, (do v <- ix e nm ;; add_0j v) = Ok a /\ takes Number a).
  { intro nm. unfold good. destruct (ix e nm) as [v|ex]; cbn [rbind].
    - rewrite add_0j_iff. split; [intros (x & E & H); congruence|eauto].
    - split; intros (x & E & _); discriminate. }
  set (P := Forall (field_ok d) head55 /\ Forall (field_ok d) (fields Must Int ["load_case"; "mode_n"] ++ fields Must Number ["eig"]) /\ cols_ok d dt).
  assert (X : (Forall (field_ok d) head55 /\ Forall (field_ok d) cplx_mode55 /\ cols_ok d dt) <-> P /\ good Number (ix e "modal_a") /\ good Number (ix e "modal_b")).
  { rewrite <- (A "modal_a") by tauto. rewrite <- (A "modal_b") by tauto. subst P. unfold cplx_mode55. rewrite app_assoc, Forall_app. unfold fields at 3. cbn [map]. rewrite !Forall_cons_iff.
    assert (N : Forall (field_ok d) []) by constructor. tauto. }
  rewrite X. clear X.
  assert (B : forall a b, Forall ok_item (items55 (dput (dput e (KS "modal_a") a) (KS "modal_b") b) k) <-> P /\ takes Number a /\ takes Number b).
  { intros a b. set (e' := dput (dput e (KS "modal_a") a) (KS "modal_b") b).
    assert (D : forall nm, nm <> "modal_a" -> nm <> "modal_b" -> dget e' (KS nm) = dget e (KS nm)).
    { intros nm N1 N2. subst e'. rewrite !dget_dput. destruct (key_eqb_spec (KS nm) (KS "modal_b")); [congruence|]. destruct (key_eqb_spec (KS nm) (KS "modal_a")); [congruence|]. reflexivity. }
    assert (Da : dget e' (KS "modal_a") = Some a) by (subst e'; rewrite !dget_dput; reflexivity).
    assert (Db : dget e' (KS "modal_b") = Some b) by (subst e'; rewrite !dget_dput; reflexivity).
    assert (F : forall t, Forall (fun f => fst (fst f) <> "modal_a" /\ fst (fst f) <> "modal_b" /\ covers (base55 ++ cplx55) f) t -> (Forall (field_ok e') (must t) <-> Forall (field_ok d) t)).
    { intros t Ht. rewrite <- (over_fields (base55 ++ cplx55) d e t O); [|revert Ht; apply Forall_impl; tauto]. unfold must. rewrite !List.Forall_map.
      rewrite Forall_forall in Ht. rewrite !Forall_forall. split; intros H f Hf; specialize (H f Hf); destruct (Ht f Hf) as (N1 & N2 & _); unfold field_ok in *; cbn [fst snd] in *;
        [rewrite <- (D _ N1 N2)|rewrite (D _ N1 N2)]; exact H. }
    rewrite (items55_iff e' k dt l) by (rewrite D by discriminate; rewrite (O "r1"), Hr; reflexivity).
    change (exists n, counted e' "node_nums" n /\ _) with (cols_ok e' dt). rewrite (rec37_iff e' k Hk).
    rewrite (cols_same d e' dt).
    - rewrite (F head55).
      + unfold cplx_mode55. unfold must. rewrite app_assoc, map_app, Forall_app. change (map (fun f => (fst f, Must)) (fields Must Int ["load_case"; "mode_n"] ++ fields Must Number ["eig"])) with (must (fields Must Int ["load_case"; "mode_n"] ++ fields Must Number ["eig"])).
        rewrite F.
        * unfold fields at 3. cbn [map fst]. rewrite !Forall_cons_iff. unfold field_ok at 3 4. cbn [fst snd]. rewrite Da, Db. subst P. assert (N : Forall (field_ok e') []) by constructor. tauto.
        * unfold fields. cbn [map app]. repeat (apply Forall_cons; [cbn [fst snd]; split; [discriminate|]; split; [discriminate|exact Logic.I]|]). apply Forall_nil.
      + unfold head55, fields. cbn [map app]. repeat (apply Forall_cons; [cbn [fst snd]; split; [discriminate|]; split; [discriminate|first [exact Logic.I|exact (lits_writable "NONE")]]|]). apply Forall_nil.
    - intros nm Hnm. cbn in Hnm. assert (Nd : nm <> "modal_a" /\ nm <> "modal_b" /\ dget (base55 ++ cplx55) (KS nm) = None)
        by (repeat (destruct Hnm as [<-|Hnm]; [split; [discriminate|]; split; [discriminate|reflexivity]|]); destruct Hnm).
      destruct Nd as (N1 & N2 & N3). rewrite (D nm N1 N2), (O nm), N3. destruct (dget d (KS nm)); reflexivity. }
  unfold put_ab. rewrite (G "modal_a"), (G "modal_b"). destruct (do v <- ix e "modal_a" ;; add_0j v) as [a|ex].
  - cbv zeta. assert (E : ix (dput e (KS "modal_a") a) "modal_b" = ix e "modal_b") by (unfold ix; rewrite dget_dput; reflexivity). rewrite E. clear E.
    destruct (do v <- ix e "modal_b" ;; add_0j v) as [b|ex].
    + rewrite B. split; [intros (HP & Ha & Hb); split; [exact HP|]; split; [exists a|exists b]; auto|]. intros (HP & (a' & Ea & Ha') & b' & Eb & Hb'). injection Ea as <-. injection Eb as <-. auto.
    + split; [intro H; apply not_ok1 in H; destruct H|]. intros (_ & _ & b' & Eb & _). discriminate.
  - split; [intro H; apply not_ok1 in H; destruct H|]. intros (_ & (a' & Ea & _) & _). discriminate.
Qed.
Lemma plan55 : forall d dt l, dget d (KS "r1") = Some (VArr dt l) -> (Forall ok_item (wp_items (write55 d)) <-> modal_ok d dt).
Proof.
  intros d dt l Hr. rewrite items_eq, prep55_eq. cbv zeta.
  pose proof (case2 d dt l Hr) as C2. pose proof (case5 d dt l Hr) as C5. pose proof (fun k Hk => case37 d k dt l Hk Hr) as C37.
  assert (Ea : ix (opt_fields d base55) "analysis_type" = ix d "analysis_type").
  { unfold ix. rewrite opt_fields_get. destruct (dget d (KS "analysis_type")); reflexivity. }
  rewrite Ea. clear Ea. revert C2 C5 C37. generalize (opt_fields (opt_fields d base55) real55). intro e2. generalize (opt_fields (opt_fields d base55) cplx55). intro e3. generalize (opt_fields d base55). intro e5.
  intros C2 C5 C37. unfold modal_ok. fold (cols_ok d dt).
  assert (Hint : forall v, dget d (KS "analysis_type") = Some v -> Forall (field_ok d) head55 -> integral v).
  { intros v Hv H. rewrite Forall_forall in H. specialize (H ("analysis_type", Int, Must) ltac:(cbn; tauto)). unfold field_ok in H. cbn [fst snd] in H. rewrite Hv in H. exact H. }
  assert (K : forall v k t, dget d (KS "analysis_type") = Some v -> In (k, t) analyses -> py_eqZ v k = true ->
    (Forall (field_ok d) head55 /\ Forall (field_ok d) t /\ cols_ok d dt <->
     Forall (field_ok d) head55 /\ (exists v k t, dget d (KS "analysis_type") = Some v /\ In (k, t) analyses /\ equals v k /\ Forall (field_ok d) t) /\ cols_ok d dt)).
  { intros v k t Hv Hin He. assert (S : forall k t, In (k, t) analyses -> In k small_ints) by (intros k' t' H; unfold analyses in H; cbn [In] in H; cbn; intuition congruence).
    split.
    - intros (A & B & C). split; [exact A|]. split; [|exact C]. exists v, k, t. split; [exact Hv|]. split; [exact Hin|]. split; [|exact B]. apply eqZ_iff; [exact (S _ _ Hin)|exact (Hint v Hv A)|exact He].
    - intros (A & (v' & k' & t' & Hv' & Hin' & He' & B) & C). split; [exact A|]. split; [|exact C]. rewrite Hv in Hv'. injection Hv' as <-.
      apply eqZ_iff in He; [|exact (S _ _ Hin)|exact (Hint v Hv A)]. pose proof (equals_fun v k k' He He' (S _ _ Hin) (S _ _ Hin')) as <-.
      assert (t = t') as ->; [|exact B]. unfold analyses in Hin, Hin'. cbn [In] in Hin, Hin'. 
      destruct Hin as [Hin|[Hin|[Hin|[Hin|[]]]]]; injection Hin as <- <-; destruct Hin' as [Hin'|[Hin'|[Hin'|[Hin'|[]]]]]; try discriminate Hin'; injection Hin' as <-; reflexivity. }
  unfold ix at 1. destruct (dget d (KS "analysis_type")) as [v|] eqn:Hv; cbn [of_option].
  2: { split; [intro H; apply not_ok1 in H; destruct H|]. intros (_ & (v & k & t & E & _) & _). discriminate. }
  destruct (py_eqZ v 2) eqn:B2; [|destruct (py_eqZ v 3) eqn:B3; [|destruct (py_eqZ v 7) eqn:B7; [|destruct (py_eqZ v 5) eqn:B5]]]; cbn [orb].
  - rewrite C2. exact (K v 2%Z mode55 eq_refl ltac:(left; reflexivity) B2).
  - rewrite <- (K v 3%Z cplx_mode55 eq_refl ltac:(right; left; reflexivity) B3), <- (C37 3%Z (or_introl eq_refl)). unfold put_ab.
    destruct (do x <- ix e3 "modal_a" ;; add_0j x); [|reflexivity]. cbv zeta. destruct (do x <- ix _ "modal_b" ;; add_0j x); reflexivity.
  - rewrite <- (K v 7%Z cplx_mode55 eq_refl ltac:(right; right; right; left; reflexivity) B7), <- (C37 7%Z (or_intror eq_refl)). unfold put_ab.
    destruct (do x <- ix e3 "modal_a" ;; add_0j x); [|reflexivity]. cbv zeta. destruct (do x <- ix _ "modal_b" ;; add_0j x); reflexivity.
  - rewrite C5. exact (K v 5%Z freq55 eq_refl ltac:(right; right; left; reflexivity) B5).
  - split; [intro H; apply not_ok1 in H; destruct H|]. intros (A & (v' & k & t & E & Hin & He & _) & _). injection E as <-. exfalso. pose proof (Hint v eq_refl A) as Hi.
    unfold analyses in Hin. cbn [In] in Hin. destruct Hin as [Hin|[Hin|[Hin|[Hin|[]]]]]; injection Hin as <- _; (apply eqZ_iff in He; [congruence|cbn; tauto|exact Hi]).
Qed.
Theorem C72_55 : forall c m fd file u d dt l, dget d (KS "type") = Some (VInt 55) -> dget d (KS "data") = None -> dget d (KS "r1") = Some (VArr dt l) ->
  (w_exc (write_set c m fd file u d) = None <-> modal_ok d dt).
Proof.
  intros c m fd file u d dt l Ht Hd Hr. rewrite (accepted _ _ _ _ _ _ _ Ht Hd). change (write_dispatch c m fd (VInt 55) d) with (write55 d). exact (plan55 d dt l Hr).
Qed.
Print Assumptions C72_55.

(* ------------------------------------------------------------------ *)
(** ** Examples *)

Definition refused (d : dict) : bool := match w_exc (write_set noclock Add true None uff0 d) with None => false | Some _ => true end.
Definition vf (z : Z) : pyval := VFloat (float_of_Z z).
Definition with_type (n : Z) (d : list (string * pyval)) : dict := (KS "type", VInt n) :: map (fun f => (KS (fst f), snd f)) d.
Definition d2411_ok := [("node_nums", VList [VInt 1; VStr (lit " 2 "); vf 3; VBool true]); ("def_cs", VArr DInt [VInt 0; VInt 0; VInt 0; VInt 0; VInt 9]);
  ("disp_cs", VList (repeat (VInt 0) 4)); ("color", VList (repeat (vf 1) 4)); ("x", VArr DFloat (repeat (vf 1) 4)); ("y", VList [VInt 1; vf 2; VInt 3; VBool false]);
  ("z", VArr DFloat [vf 1; VFloat S754_nan; vf 2; vf 3])].
Definition except (k : string) (d : list (string * pyval)) := filter (fun f => negb (String.eqb k (fst f))) d.
Definition set (k : string) (v : pyval) (d : list (string * pyval)) := (k, v) :: except k d.
(** Mixed columns and too long ones are written; a missing or short column, a text
    where a real is expected and a number that is no integer label are refused. *)
Example C72_2411_example :
  map (fun d => refused (with_type 2411 d)) [d2411_ok; except "z" d2411_ok; set "x" (VArr DFloat [vf 1; vf 2; vf 3]) d2411_ok; set "y" (VList (repeat (VStr (lit "1.0")) 4)) d2411_ok;
    set "node_nums" (VList [VInt 1; VStr (lit "2.5"); VInt 3; VInt 4]) d2411_ok; set "color" (VList (repeat (VFloat S754_nan) 4)) d2411_ok]
  = [false; true; true; true; true; true].
Proof. vm_compute. reflexivity. Qed.
Definition dgroup (n : nat) := [("group_number", VInt 1); ("group_name", VStr (lit "g")); ("entity_type_code", VList (repeat (VInt 8) n)); ("entity_tag", VList (repeat (VInt 1) n))].
Example C72_2429_example : map (fun n => refused (with_type 2429 (dgroup n))) (seq 0 12) = [false; false; true; true; false; false; false; true; false; false; false; false].
Proof. vm_compute. reflexivity. Qed.
Definition dgroup2467 (sets : bool) (n : nat) : pyval := VDict (map (fun f => (KS (fst f), snd f))
  (dgroup n ++ [("entity_node_leaf_id", VList (repeat (VInt 0) n)); ("entity_component_id", VList (repeat (VInt 0) n))] ++ (if sets then map (fun k => (k, VInt 0)) group_sets else []))).
(** A group without its set numbers is refused although the writer has defaults for them. *)
Example C72_2467_example : map (fun gs => refused (with_type 2467 [("groups", VList gs)]))
  [[]; [dgroup2467 true 0; dgroup2467 true 5]; [dgroup2467 true 2; dgroup2467 false 2]] = [false; false; true]
  /\ refused (with_type 2467 [("groups", dgroup2467 true 2)]) = true.
Proof. split; vm_compute; reflexivity. Qed.
Definition delem (fd : Z) (beam : bool) : pyval := VDict (map (fun f => (KS (fst f), snd f)) ([("element_nums", VInt 1); ("fe_descriptor", VInt fd); ("phys_table", VInt 1); ("mat_table", VInt 1);
  ("color", VInt 1); ("num_nodes", VInt 2); ("nodes_nums", VList [VInt 1; VInt 2])] ++ (if beam then map (fun k => (k, VInt 0)) beam_fields else []))).
Example C72_2412_example : map (fun l => refused ((KS "type", VInt 2412) :: (KS "note", VNone) :: l))
  [[(KI 41, VList [delem 41 false])]; [(KI 11, VList [delem 11 true]); (KI 21, VList [delem 21 false])]; [(KI 11, VList [delem 11 false])]; [(KI 0, VInt 5)]]
  = [false; false; true; true].
Proof. vm_compute. reflexivity. Qed.
Definition d55_ok := [("analysis_type", VInt 2); ("data_ch", VInt 2); ("spec_data_type", VInt 8); ("load_case", VInt 1); ("mode_n", VInt 1); ("freq", VFloat (float_of_Z 10));
  ("node_nums", VList [VInt 1; VInt 2]); ("r1", VArr DFloat [vf 1; vf 2]); ("r2", VArr DFloat [vf 1; vf 2]); ("r3", VArr DFloat [vf 1; vf 2])].
Example C72_55_example : map (fun d => refused (with_type 55 d))
  [d55_ok; set "analysis_type" (VInt 4) d55_ok; set "analysis_type" (VInt 5) d55_ok; set "freq_step_n" (VInt 1) (set "analysis_type" (VInt 5) d55_ok); except "freq" d55_ok;
   set "eig" (VCplx (float_of_Z 1) (float_of_Z 2)) (set "analysis_type" (VInt 7) d55_ok); set "modal_m" (VStr (lit "1")) d55_ok; set "r2" (VArr DFloat [vf 1]) d55_ok]
  = [false; true; true; false; true; false; true; true].
Proof. vm_compute. reflexivity. Qed.
Definition d2420_ok := [("CS_sys_labels", VList [VInt 1]); ("CS_names", VList [VStr (lit "a")]); ("CS_matrices", VList [VArr2 DFloat (repeat (repeat (vf 1) 3) 4)])].
Example C72_2420_example : map (fun d => refused (with_type 2420 d))
  [d2420_ok; set "CS_types" (VList [VInt 0; VInt 0]) d2420_ok; set "CS_matrices" (VList [VArr2 DFloat (repeat (repeat (vf 1) 3) 3)]) d2420_ok;
   [("CS_sys_labels", VList [VInt 1; VInt 2]); ("CS_names", VList [VStr (lit "a"); VStr (lit "b")]); ("CS_matrices", VList (repeat (VArr2 DFloat (repeat (repeat (vf 1) 3) 4)) 2))]]
  = [false; true; true; true].
Proof. vm_compute. reflexivity. Qed.
Example C72_82_example : map (fun d => refused (with_type 82 d))
  [[("trace_num", VInt 1); ("nodes", VArr DInt (map VInt [1; 2; 0; 3]%Z))]; [("trace_num", VInt 1); ("nodes", VList (map VInt [1; 2; 0; 3]%Z))]; [("nodes", VArr DInt (map VInt [1; 2; 0; 3]%Z))]]
  = [false; true; true].
Proof. vm_compute. reflexivity. Qed.
Definition d2414_head := [("analysis_dataset_label", VInt 1); ("dataset_location", VInt 1); ("model_type", VInt 1); ("analysis_type", VInt 4); ("data_characteristic", VInt 2); ("result_type", VInt 8); ("data_type", VInt 2);
  ("number_of_data_values_for_the_data_component", VInt 3); ("analysis_dataset_name", VStr (lit "n")); ("id1", VNone); ("id2", VStr []); ("id3", VStr []); ("id4", VStr []); ("id5", VInt 7)].
Definition d2414_ok := d2414_head ++ [("node_nums", VArr DInt [VInt 1]); ("data_at_node", VList [VArr DFloat [vf 1; vf 2; vf 3]])].
Example C72_2414_example : map (fun d => refused (with_type 2414 d))
  [d2414_ok; set "node_nums" (VList [VInt 1]) d2414_ok; set "dataset_location" (VInt 2) d2414_ok; set "dataset_location" (VInt 4) d2414_head; set "analysis_type" (VInt 5) d2414_ok; set "record12_field3" (VStr []) d2414_ok]
  = [false; true; true; false; true; true].
Proof. vm_compute. reflexivity. Qed.
Definition d151_ok := map (fun k => (k, VStr (lit "a"))) ["model_name"; "description"; "db_app"; "program"].
Example C72_151_example : map (fun d => refused (with_type 151 d)) [d151_ok; except "program" d151_ok; set "description" (VStr [55296%N]) d151_ok; set "version_db1" VNone d151_ok] = [false; true; true; false].
Proof. vm_compute. reflexivity. Qed.
