(** Writing what was read gives the same bytes: one set, and a whole file. *)
From Coq Require Import String List NArith ZArith Bool Lia.
Import ListNotations.
From Verif Require Import PyBase PyNum PyVal Utf8 Tools DsNodes DsHeaders DsGroups Ds55 Ds58 Ds2414 Uff Facts FloatFacts DecFacts FloatText Scan Container Append
  ContainerThms Utf8Facts Lines Stored Cells Rows RtNodes RtCs RtHeads RtElems RtGroups RtNodal RtFun RtFunSet RtAnalysis Witness
  PropNodes PropHeads PropGroups PropNodal PropFun PropAnalysis PropHistory Stable Stable2 Stable3.
From Coq Require Import Lia SpecFloat.
Open Scope string_scope.
Open Scope list_scope.
Open Scope nat_scope.

(** Sets that lose nothing but digits: texts without surrounding blanks that fit
    their field, no subnormal number in a rounded field, no negative zero as a
    part of a complex number, elements in the order of their descriptors, a step
    of an evenly spaced abscissa that is found again (see [C56_step_refuted]);
    sets of type 2429 are excluded, they cannot be written again (C49). *)
Definition tidy (x : content) : Prop :=
  match x with
  | X15 l => tidy15 l | X18 l => tidy18 l | X55 r => tidy55 r | X58 b r => tidy58 b r | X82 t => tidy82 t
  | X151 h => tidy151 h | X164 u => tidy164 u | X1858 q => tidy1858 q | X2400 h => tidy2400 h | X2411 l => True
  | X2412 l => tidy2412 l | X2414 a => tidy2414 a | X2420 p => tidy2420 p | X2429 g es => False | X2467 l => tidy2467 l
  end.
(** Binary sets cannot start an overwriting call (C29); [force_double] must not
    change the precision. *)
Definition copies (m : wmode) (fd : bool) (x : content) : Prop :=
  match x with X58 b r => (b = true -> m = Add) /\ (fd = true -> q_dbl r = true) | _ => True end.

(** C56, one set: the dictionary that is read is written as the same bytes, at any
    time. *)
Theorem C56_set : forall c m fd d x, states c m fd d x -> tidy x -> forall c' m' fd', copies m' fd' x -> exists new, forall start,
  run_items start (set_items c m fd d) = (start ++ new, None) /\ run_items start (set_items c' m' fd' (reading false x)) = (start ++ new, None).
Proof.
  intros c m fd d x H T c' m' fd' C. destruct x as [l|l|r|b r|t|h|u|q|h|l|l|a|p|g es|l]; cbn [states tidy copies reading] in *.
  - destruct H. apply same15; assumption.
  - destruct H. apply same18; assumption.
  - destruct H. apply same55; assumption.
  - destruct C as [C1 C2]. destruct b.
    + destruct H as (-> & R & W & D & N & _). rewrite (C1 eq_refl). apply same58b; assumption.
    + destruct H. apply same58; assumption.
  - destruct H. apply same82; assumption.
  - destruct H. apply same151; assumption.
  - destruct H. apply same164; assumption.
  - destruct H. apply same1858; assumption.
  - destruct H. apply same2400; assumption.
  - destruct H. apply same2411; assumption.
  - destruct H. apply same2412; assumption.
  - destruct H. apply same2414; assumption.
  - destruct H. apply same2420; assumption.
  - contradiction.
  - destruct H. apply same2467; assumption.
Qed.
Print Assumptions C56_set.

Definition again (b : block) (x : content) : Prop :=
  framed b /\ (forall ho, reads b ho (reading ho x)) /\
  (tidy x -> forall c m fd, copies m fd x -> stored c m fd (reading false x) b).
Lemma states_again : forall c m fd d x, states c m fd d x -> exists b, stored c m fd d b /\ again b x.
Proof.
  intros c m fd d x H. destruct (states_block c m fd d x H) as (b & Sb & _ & Rb). exists b. split; [exact Sb|].
  split; [apply Sb|]. split; [exact Rb|]. intros T c' m' fd' C. split; [apply Sb|]. intro start.
  destruct (C56_set c m fd d x H T c' m' fd' C) as (new & E). destruct (E start) as [E1 E2]. destruct Sb as [_ Sb]. rewrite Sb in E1. congruence.
Qed.
Lemma list_again : forall c fd ds xs, Forall2 (states c Add fd) ds xs -> exists bs, Forall2 (stored c Add fd) ds bs /\ Forall2 again bs xs.
Proof.
  intros c fd ds xs H. induction H as [|d x ds xs Hx _ (bs & H1 & H2)]; [exists []; split; constructor|].
  destruct (states_again _ _ _ _ _ Hx) as (b & Sb & Ab). exists (b :: bs). split; constructor; assumption.
Qed.
Lemma again_framed : forall bs xs, Forall2 again bs xs -> Forall framed bs.
Proof. intros bs xs H. induction H as [|b x bs xs (F & _) _ IH]; constructor; assumption. Qed.
Lemma hist_again : forall h cs, Forall2 call_states h cs -> forall bs xs u, Forall2 again bs xs -> (bs = [] \/ u = view (file_of bs)) ->
  exists bs', Forall2 again bs' (fold_left step cs xs) /\
    (h = [] /\ bs' = bs \/
     bs' <> [] /\ run_hist h (match bs with [] => None | _ => Some (file_of bs) end) u = (Some (file_of bs'), view (file_of bs'), None)).
Proof.
  intros h cs H. induction H as [|call ys h cs Hc Hrest IH]; intros bs xs u Hb Hu.
  - exists bs. split; [exact Hb|]. left. auto.
  - destruct Hc as [c m fd d x ds zs Hx Hs]. destruct (states_again _ _ _ _ _ Hx) as (b & Sb & Ab). destruct (list_again _ _ _ _ Hs) as (ns & H1 & H2).
    assert (Hl : stored_list c m fd (d :: ds) (b :: ns)) by (split; [discriminate|split; assumption]).
    destruct (write_sets_stored c m fd (d :: ds) (b :: ns) bs u Hl (again_framed _ _ Hb)) as (Hw & Hf & Hne).
    assert (Hstep : Forall2 again (replay1 m bs (b :: ns)) (step xs (m, x :: zs))).
    { unfold step. cbn [fst snd]. destruct m; cbn [replay1]; [constructor; assumption|]. apply Forall2_app; [assumption|constructor; assumption]. }
    destruct (IH _ _ (view (file_of (replay1 m bs (b :: ns)))) Hstep (or_intror eq_refl)) as (bs' & H3 & H4).
    exists bs'. split; [exact H3|]. right. cbn [run_hist]. rewrite Hw.
    destruct H4 as [[-> ->]|[H4 H5]].
    + split; [assumption|reflexivity].
    + split; [assumption|]. destruct (replay1 m bs (b :: ns)) as [|b0 r0]; [congruence|]. exact H5.
Qed.

Definition copies_all (m : wmode) (fd : bool) (xs : list content) : Prop :=
  match xs with [] => True | x :: r => copies m fd x /\ Forall (copies Add fd) r end.
(** C56, a whole file: whatever calls produced it, reading all its sets and writing
    them to a new file, by any object, gives the same file. *)
Theorem C56_copy : forall h cs u0, Forall2 call_states h cs -> h <> [] -> Forall tidy (replay cs) ->
  exists file u sets, run_hist h None u0 = (Some file, u, None) /\
    read_sets (Some file) u SelAll false = Ok (u, shape_result sets) /\
    forall c m fd u1, copies_all m fd (replay cs) -> exists u2, write_sets c None u1 sets (mode_name m) fd = (Some file, u2, None).
Proof.
  intros h cs u0 H Hne T. destruct (hist_again h cs H [] [] u0 (Forall2_nil _) (or_introl eq_refl)) as (bs & Hb & [[E _]|[Hn Hr]]); [congruence|].
  change (fold_left step cs []) with (replay cs) in Hb. exists (file_of bs), (view (file_of bs)), (map (reading false) (replay cs)).
  split; [exact Hr|]. assert (Hf := again_framed _ _ Hb).
  assert (Hrd : Forall2 (fun b o => reads b false o) bs (map (reading false) (replay cs))).
  { clear -Hb. induction Hb as [|b x bs xs (_ & Hx & _) _ IH]; constructor; auto. }
  destruct (read_blocks bs false _ Hf Hrd) as (Ha & _). split; [exact Ha|]. intros c m fd u1 C.
  assert (L : stored_list c m fd (map (reading false) (replay cs)) bs).
  { clear Hr Ha Hrd. revert T C. destruct Hb as [|b x bs xs Hx Hb]; intros T C; [congruence|]. destruct C as [C1 C2]. inversion T as [|? ? T1 T2]; subst.
    split; [discriminate|]. cbn [map]. split; [apply Hx; assumption|]. clear Hx C1 T1 T Hn Hf. induction Hb as [|b' x' bs xs Hx Hb IH]; [constructor|].
    inversion C2; inversion T2; subst. constructor; [apply Hx; assumption|apply IH; assumption]. }
  destruct (write_sets_stored c m fd _ bs [] u1 L (Forall_nil _)) as (Hw & _ & _). cbn [replay1 app] in Hw. exists (view (file_of bs)).
  destruct m; exact Hw.
Qed.
Print Assumptions C56_copy.

(** Cases: all types but 2429, in ASCII and binary form. *)
Ltac tidy1 := lazymatch goal with
  | |- _ /\ _ => split; [tidy1|tidy1]
  | |- True => exact Logic.I
  | |- Forall ?P ?l => let l' := eval hnf in l in change (Forall P l'); lazymatch l' with
      | [] => apply Forall_nil | _ :: _ => apply Forall_cons; [tidy1|tidy1] end
  | |- normalf _ => split; vm_compute; reflexivity
  | |- plus0 _ => split; [split; vm_compute; reflexivity|vm_compute; discriminate]
  | |- trim _ _ => split; [vm_compute; reflexivity|apply Nat.leb_le; vm_compute; reflexivity]
  | |- _ <> _ => vm_compute; discriminate
  | |- _ = _ => vm_compute; reflexivity
  | |- exists _ _ _, xs_read _ _ = _ /\ _ => do 3 eexists; split; [vm_compute; reflexivity|tidy1]
  | |- _ -> _ => let Q := fresh in intro Q; tidy1
  | |- _ => progress hnf; tidy1
  end.
Definition put (k : string) (v : pyval) (d : dict) : dict := map (fun kv => if key_eqb (fst kv) (KS k) then (fst kv, v) else kv) d.
Definition t151 : dict := Eval vm_compute in put "description" (VStr (lit "Model file description")) d151.
Definition k151 : head151 := Eval vm_compute in
  {| a_model := a_model h151; a_desc := lit "Model file description"; a_app := a_app h151; a_prog := a_prog h151; a_date1 := a_date1 h151; a_time1 := a_time1 h151;
     a_date2 := a_date2 h151; a_time2 := a_time2 h151; a_date3 := a_date3 h151; a_time3 := a_time3 h151; a_v1 := a_v1 h151; a_v2 := a_v2 h151; a_ft := a_ft h151 |}.
Example tidy_151 : repr151 noclock t151 k151 /\ wf151 k151.
Proof.
  split; [unfold repr151; wit|]. unfold wf151, k151, short_text. cbn [a_model a_desc a_app a_prog a_date1 a_time1 a_date2 a_time2 a_date3 a_time3 a_v1 a_v2 a_ft].
  wit; cbn; lia.
Qed.
Definition t18 : dict := Eval vm_compute in put "cs_name" (VList [VStr (lit "axis one"); VStr (lit "b")]) d18.
Definition k18 : list cs18 := Eval vm_compute in
  map (fun c => {| c_num := c_num c; c_type := c_type c; c_ref := c_ref c; c_color := c_color c; c_method := c_method c; c_name := strip (c_name c);
                   c_o := c_o c; c_x := c_x c; c_xz := c_xz c |}) r18.
Example tidy_18 : repr18 t18 k18 /\ wf18 k18.
Proof.
  unfold repr18, wf18. split.
  - do 8 (split; [wit1|]); try (split; [wit_pts|split; wit_pts]); wit.
  - unfold k18. wit; cbn [c_num c_type c_ref c_color c_method c_name c_o c_x c_xz]; unfold ptv, pt_list; wit.
Qed.
Definition t2420 : dict := Eval vm_compute in put "CS_names" (VList [VStr (lit "global"); VStr (lit "cyl 1")]) d2420.
Definition k2420 : part := Eval vm_compute in
  {| p_uid := p_uid p2420; RtCs.p_name := RtCs.p_name p2420;
     p_cs := map (fun s => {| s_label := s_label s; s_type := s_type s; s_color := s_color s; s_name := rstrip (s_name s); s_mat := s_mat s |}) (p_cs p2420) |}.
Example tidy_2420 : repr2420 t2420 k2420 /\ wf2420 k2420.
Proof.
  split.
  - unfold repr2420. do 8 (split; [wit1|]). eexists; split; [vm_compute; reflexivity|]. eexists; split; [reflexivity|].
    repeat (constructor; [eexists _, _; split; [reflexivity|]; repeat (constructor; [repeat constructor|]); constructor|]). constructor.
  - unfold wf2420, k2420. cbn [p_uid RtCs.p_name p_cs]. wit; cbn [s_label s_type s_color s_name s_mat]; unfold matv, mat_rows; cbn [map pt_list]; wit.
Qed.
Definition t2467 : dict := Eval vm_compute in
  [(KS "type", VInt 2467); (KS "groups", VList [gd2467 1 "first" es2467; gd2467 1234567890 "second" []])].
Definition k2467 : list (group * list ent4) := Eval vm_compute in
  [({| p_num := 1; p_sets := repeat 3%Z 6; p_name := lit "first" |}, es2467); ({| p_num := 1234567890; p_sets := repeat 3%Z 6; p_name := lit "second" |}, [])].
Example tidy_2467 : repr2467 t2467 k2467 /\ wf2467 k2467.
Proof.
  split.
  - split; [reflexivity|]. split; [reflexivity|]. eexists. split; [vm_compute; reflexivity|]. eexists. split; [vm_compute; reflexivity|].
    repeat (constructor; [eexists; split; [reflexivity|]; cbn [fst snd p_num p_sets p_name]; split; [wit_has|]; split;
      [unfold sets_of, group_keys; repeat (constructor; [wit_has|]); constructor|wit]|]). constructor.
  - unfold wf2467, wf_group, k2467. repeat (constructor; [cbn [fst snd p_num p_sets p_name]; split; [wit|split; [wit|]]; unfold cells4; cbn [x_code x_tag x_leaf x_comp]; wit|]). constructor.
Qed.
(** [d2412] with the elements of its last entry under their own descriptors. *)
Definition t2412 : dict := Eval vm_compute in
  [(KS "type", VInt 2412);
   (KI 44, VList [elem_dict 1 44 4 [1; 2; 3; 4] []; elem_dict 2 44 4 [4; 3; 5; 999999999] []; elem_dict 4 44 0 [] []]%Z);
   (KI 11, VList [elem_dict 1234567890 11 2 [1; 5]
      [(KS "beam_orientation", VInt 0); (KS "beam_foreend_cross", VInt 1); (KS "beam_aftend_cross", VInt 2)]]%Z);
   (KI 41, VList [elem_dict 3 41 3 [5; 6; 7] []]%Z)].
Definition k2412 : list elem := Eval vm_compute in regroup l2412.
Example tidy_2412 : repr2412 t2412 k2412 /\ wf2412 k2412.
Proof.
  split.
  - split; [reflexivity|]. split; [reflexivity|]. unfold t2412, k2412. cbn [elems_of].
    eexists [_; _; _], [_; _]. split; [reflexivity|]. split; [eexists; split; [reflexivity|repeat (constructor; [wit_elem|]); constructor]|].
    eexists [_], [_]. split; [reflexivity|]. split; [eexists; split; [reflexivity|repeat (constructor; [wit_elem|]); constructor]|].
    eexists [_], []. split; [reflexivity|]. split; [eexists; split; [reflexivity|repeat (constructor; [wit_elem|]); constructor]|]. reflexivity.
  - unfold wf2412, k2412. repeat (constructor; [unfold wf_elem; cbn [e_num e_desc e_phys e_mat e_color e_count e_nodes e_beam];
      do 4 (split; [wit|]); split; [intro Hb; first [discriminate Hb|clear Hb; wit]|wit]|]). constructor.
Qed.

Definition h_copy : hist :=
  [(noclock, Add, true, [d164; d15; d2414_freq]);
   (noclock, Overwrite, false, [t151; d164; d58_even; d2400]);
   (noclock, Add, true, [d58_bin; d15; t18; d55_normal; d58_uneven; d82]);
   (noclock, Add, true, [d1858; d2411; t2412; d2414_on; t2420; t2467; d2414_nodes])].
Definition x_copy : list (wmode * list content) :=
  [(Add, [X164 u164; X15 r15; X2414 a2414_freq]);
   (Overwrite, [X151 k151; X164 u164; X58 false r58_even; X2400 h2400]);
   (Add, [X58 true r58_uneven; X15 r15; X18 k18; X55 r55_normal; X58 false r58_uneven; X82 t82]);
   (Add, [X1858 q1858; X2411 r2411; X2412 k2412; X2414 a2414_on; X2420 k2420; X2467 k2467; X2414 a2414_nodes])].
Example C56_example : Forall2 call_states h_copy x_copy /\ Forall tidy (replay x_copy) /\ copies_all Overwrite false (replay x_copy).
Proof.
  split.
  - assert (B := C28_example).
    repeat first [apply Forall2_cons | apply Forall2_nil | apply call_of]; cbn [states];
    first [exact C38_example | exact C23_example | exact C45_example_freq | exact tidy_151 | exact C27_example_even | exact C41_example
          | exact tidy_18 | exact C25_example_normal | exact C27_example_uneven | exact C34_example
          | exact C39_example | exact C42_example | exact tidy_2412 | exact C45_example_on | exact tidy_2420 | exact tidy_2467
          | exact C45_example_nodes | (split; [reflexivity|exact B])].
  - split; [tidy1|]. change (replay x_copy) with
      [X151 k151; X164 u164; X58 false r58_even; X2400 h2400; X58 true r58_uneven; X15 r15; X18 k18; X55 r55_normal; X58 false r58_uneven; X82 t82;
       X1858 q1858; X2411 r2411; X2412 k2412; X2414 a2414_on; X2420 k2420; X2467 k2467; X2414 a2414_nodes].
    cbn [copies_all copies]. repeat constructor; discriminate.
Qed.

(** ** Sets that are not stable *)
Definition read_one (f : option bytes) (u : uff) : dict :=
  match read_sets f u (SelOne 0) false with Ok (_, One d) => d | _ => [] end.
(** Written once, read, written again. *)
Definition copy_differs (d : dict) : Prop := exists f g u v,
  write_sets noclock None uff0 [d] (lit "overwrite") true = (Some f, u, None) /\
  write_sets noclock None uff0 [read_one (Some f) u] (lit "overwrite") true = (Some g, v, None) /\ f <> g.
(** An evenly spaced abscissa from 2^20 - 1 in steps of about 1e-6: the start is
    stored as 1.04858e+06, where doubles are too coarse for the stored step. *)
Definition d58_step : dict := Eval vm_compute in
  h58 ++ [(KS "abscissa_spacing", VInt 1); (KS "ord_data_type", VInt 2); (KS "x", VArr DFloat [fv "1048575"; fv "1048575.0000009999"; fv "1048575.0000019998"]);
          (KS "data", VArr DFloat [fv "1"; fv "2"; fv "3"])].
Theorem C56_step_refuted : exists d r, repr58 true false d r /\ wf58 r /\ copy_differs d.
Proof.
  exists d58_step.
  exists (r58 false true true (fl "1048575") (f_sub (fl "1048575.0000009999") (fl "1048575"))
    [(fl "1048575", (fl "1", f_zero)); (fl "1048575.0000009999", (fl "2", f_zero)); (fl "1048575.0000019998", (fl "3", f_zero))]).
  split.
  { unfold repr58. repeat (split; [solve [repeat wit58]|]). split.
    - eexists. split; [vm_compute; reflexivity|]. left. eexists _, _, _. split; [reflexivity|]. split; [vm_compute; reflexivity|]. repeat (split; [vm_compute; reflexivity|]).
      vm_compute; reflexivity.
    - eexists. split; [vm_compute; reflexivity|]. split; [exact Logic.I|]. eexists DFloat, _. split; [vm_compute; reflexivity|]. split; [split; discriminate|].
      cbv iota. repeat constructor. }
  split; [unfold r58; wf58_tac|].
  eexists _, _, _, _. split; [vm_compute; reflexivity|]. split; [vm_compute; reflexivity|]. vm_compute. discriminate.
Qed.
Print Assumptions C56_step_refuted.
(** Elements whose descriptors alternate come back grouped. *)
Theorem C56_order_refuted : exists d l, repr2412 d l /\ wf2412 l /\ copy_differs d.
Proof.
  exists d2412, l2412. split; [apply C43_example|]. split; [apply C43_example|].
  eexists _, _, _, _. split; [vm_compute; reflexivity|]. split; [vm_compute; reflexivity|]. vm_compute. discriminate.
Qed.
Print Assumptions C56_order_refuted.
(** A complex mode with a negative zero comes back with a positive one. *)
Theorem C56_zero_refuted : exists d r, repr55 d r /\ wf55 r /\ copy_differs d.
Proof.
  exists d55_complex, r55_complex. split; [apply C25_example_complex|]. split; [apply C25_example_complex|].
  eexists _, _, _, _. split; [vm_compute; reflexivity|]. split; [vm_compute; reflexivity|]. vm_compute. discriminate.
Qed.
Print Assumptions C56_zero_refuted.
