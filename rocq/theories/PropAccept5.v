(** Property C72 for type 58.  The data is a one-dimensional array. *)
From Coq Require Import String List NArith ZArith Bool QArith Lia.
Import ListNotations.
From Verif Require Import PyBase PyNum PyVal Utf8 Tools Facts IntFacts QFacts FloatFacts FloatText DictFacts DsNodes DsHeaders DsGroups Ds55 Ds58 Ds2414 Uff
  Container Append Utf8Facts Lines Cells PropNumeral Accept Witness PropCaller PropAccept PropAccept2 PropAccept3 PropAccept4.
From Coq Require Import Lia.
Open Scope string_scope.
Open Scope list_scope.
Open Scope nat_scope.

(* ------------------------------------------------------------------ *)
(** ** What is claimed *)

(** Fields of the header with one value each.  There is no default for
    "orddenom_spec_data_type". *)
Definition head58 :=
  fields May Text ["id1"; "id2"; "id3"; "id4"; "id5"; "rsp_ent_name"; "ref_ent_name"; "abscissa_axis_lab"; "abscissa_axis_units_lab"; "ordinate_axis_lab"; "ordinate_axis_units_lab";
    "orddenom_axis_lab"; "orddenom_axis_units_lab"; "z_axis_axis_lab"; "z_axis_axis_units_lab"]
  ++ fields May Int ["func_id"; "ver_num"; "load_case_id"; "abscissa_spec_data_type"; "ordinate_spec_data_type"; "z_axis_spec_data_type";
    "abscissa_len_unit_exp"; "abscissa_force_unit_exp"; "abscissa_temp_unit_exp"; "ordinate_len_unit_exp"; "ordinate_force_unit_exp"; "ordinate_temp_unit_exp";
    "orddenom_len_unit_exp"; "orddenom_force_unit_exp"; "orddenom_temp_unit_exp"; "z_axis_len_unit_exp"; "z_axis_force_unit_exp"; "z_axis_temp_unit_exp"]
  ++ fields Must Int ["func_type"; "rsp_node"; "rsp_dir"; "ref_node"; "ref_dir"; "orddenom_spec_data_type"]
  ++ fields May Real ["z_axis_value"].
(** A field that is an integer equal to one of [ks]. *)
Definition one_of (d : dict) (k : string) (ks : list Z) : Prop := exists v, dget d (KS k) = Some v /\ integral v /\ exists n, In n ks /\ py_eqZ v n = true.
(** The truth value of a field, false if it is missing. *)
Definition flag (d : dict) (k : string) (b : bool) : Prop :=
  match dget d (KS k) with Some v => truthy v = Ok b | None => b = false end.
Definition whole (v : pyval) : option Z := match v with VInt z => Some z | VBool b => Some (if b then 1 else 0)%Z | _ => None end.
Definition is_float (v : pyval) : Prop := exists f, v = VFloat f.
(** The first two abscissas have a difference; for evenly spaced data the first
    one and the difference are in the range of doubles. *)
Definition step_ok (even : bool) (x0 x1 : pyval) : Prop :=
  match whole x0, whole x1 with
  | Some a, Some b => even = true -> (Z.abs a < real_limit)%Z /\ (Z.abs (b - a) < real_limit)%Z
  | Some a, None => is_float x1 /\ (Z.abs a < real_limit)%Z
  | None, Some b => is_float x0 /\ (Z.abs b < real_limit)%Z
  | None, None => is_float x0 /\ is_float x1
  end.
Definition function_ok (fd : bool) (d : dict) (dt : dtype) (l : list pyval) : Prop :=
  Forall (field_ok d) head58 /\ one_of d "func_type" [0; 1; 2; 3; 4; 6; 9]%Z /\
  (fd = false -> one_of d "ord_data_type" [4; 6; 2; 5]%Z) /\
  (exists b, flag d "binary" b) /\
  Forall (takes (match dt with DCplx => Number | _ => Real end)) l /\
  exists even x xs x0 x1, flag d "abscissa_spacing" even /\ dget d (KS "x") = Some x /\ entries x = Some xs /\
    nth_error xs 0 = Some x0 /\ nth_error xs 1 = Some x1 /\ step_ok even x0 x1 /\
    (even = false -> length xs = length l /\ Forall real xs).

(* ------------------------------------------------------------------ *)
(** ** Proof *)

Definition nums (dt : dtype) (l : list pyval) : Prop := Forall (takes (match dt with DCplx => Number | _ => Real end)) l.
Lemma floats_iff : forall l, (exists fs, floats_of l = Ok fs) <-> Forall real l.
Proof.
  unfold floats_of, rmap. induction l as [|v l IH]; [split; [constructor|intros _; exists []; reflexivity]|].
  rewrite Forall_cons_iff, <- IH, <- real_iff. cbn [map rseq]. split.
  - intros [fs H]. destruct (fmt_float_arg v) as [f|]; [|discriminate]. cbn [rbind] in H. destruct (rseq _) as [r|]; [|discriminate]. eauto.
  - intros [[f ->] [fs ->]]. cbn [rbind]. eauto.
Qed.
Lemma floats_len : forall l fs, floats_of l = Ok fs -> length fs = length l.
Proof.
  unfold floats_of, rmap. induction l as [|v l IH]; intros fs H; cbn [map rseq] in H; [injection H as <-; reflexivity|].
  destruct (fmt_float_arg v) as [f|]; [|discriminate]. cbn [rbind] in H. destruct (rseq _) as [r|]; [|discriminate]. cbn [rbind] in H. injection H as <-. cbn [length]. f_equal. auto.
Qed.
Lemma nan_nums : forall dt l, nums dt (map nan_to_num_elt l) <-> nums dt l.
Proof.
  intros dt l. unfold nums. rewrite List.Forall_map. rewrite !Forall_forall. split; intros H v Hv; specialize (H v Hv); destruct dt, v; exact H.
Qed.
(** A slice of the length of the sequence. *)
Lemma assign_iff : forall n v xs, (forall s, v <> VStr s) -> entries v = Some xs -> length xs = n -> ((exists fs, assign_slice n v = Ok fs) <-> Forall real xs).
Proof.
  intros n v xs Hs E L. rewrite <- floats_iff. unfold assign_slice. rewrite to_seq_entries, E. cbn [rbind].
  assert (Ev : match v with VStr _ => Err Unmodelled | _ => floats_of xs end = floats_of xs) by (destruct v; try reflexivity; exfalso; eapply Hs; reflexivity).
  rewrite Ev. destruct (floats_of xs) as [fs|e] eqn:Ef; cbn [rbind].
  - apply floats_len in Ef. rewrite Ef, L, Nat.eqb_refl. split; eauto.
  - split; intros [f H]; discriminate.
Qed.
(** The abscissas, at least two. *)
Lemma assign_x : forall n v xs x0 x1, entries v = Some xs -> nth_error xs 0 = Some x0 -> nth_error xs 1 = Some x1 ->
  ((exists fs, assign_slice n v = Ok fs) <-> length xs = n /\ Forall real xs).
Proof.
  intros n v xs x0 x1 E E0 E1. assert (L : 2 <= length xs) by (apply nth_error_Some; congruence).
  assert (S : (forall s, v <> VStr s) \/ exists s, v = VStr s) by (destruct v; try (left; discriminate); right; eauto).
  destruct S as [S|[s ->]].
  - destruct (Nat.eq_dec (length xs) n) as [D|D]; [rewrite (assign_iff n v xs S E D); tauto|]. split; [|tauto]. intros [fs H]. exfalso.
    unfold assign_slice in H. rewrite to_seq_entries, E in H. cbn [rbind] in H.
    assert (Ev : match v with VStr _ => Err Unmodelled | _ => floats_of xs end = floats_of xs) by (destruct v; try reflexivity; exfalso; eapply S; reflexivity).
    rewrite Ev in H. destruct (floats_of xs) as [gs|] eqn:Ef; [|discriminate]. cbn [rbind] in H. apply floats_len in Ef. rewrite (proj2 (Nat.eqb_neq _ _)) in H by congruence.
    destruct gs as [|a [|b gs]]; cbn [length] in Ef; [discriminate|lia|discriminate].
  - split; [intros [fs H]; discriminate H|]. intros [_ F]. exfalso. cbn [entries] in E. injection E as <-. destruct s as [|c s]; [discriminate|]. inversion F as [|? ? Hr _]. exact Hr.
Qed.
Lemma parts_iff : forall (part : result pyval -> result pyval) dt l,
  (exists fs, (do p <- arr_parts part (VArr dt l) ;; assign_slice (length l) p) = Ok fs) <-> Forall (fun e => good Real (part (Ok e))) l.
Proof.
  intros part dt l. unfold arr_parts. unfold rmap.
  assert (R : (exists ps, rseq (map (fun e => part (Ok e)) l) = Ok ps /\ Forall real ps) <-> Forall (fun e => good Real (part (Ok e))) l).
  { induction l as [|v l IH]; [split; [constructor|intros _; exists []; split; [reflexivity|constructor]]|]. rewrite Forall_cons_iff, <- IH. cbn [map rseq]. unfold good at 1. cbn [takes]. split.
    - intros (ps & H & F). destruct (part (Ok v)) as [x|]; [|discriminate]. cbn [rbind] in H. destruct (rseq _) as [r|]; [|discriminate]. cbn [rbind] in H. injection H as <-. inversion F; subst. split; eauto.
    - intros ((x & -> & Hx) & r & -> & F). cbn [rbind]. eexists. split; [reflexivity|]. constructor; assumption. }
  rewrite <- R. clear R. destruct (rseq (map (fun e => part (Ok e)) l)) as [ps|e] eqn:E; cbn [rbind].
  - rewrite (assign_iff (length l) (VArr DFloat ps) ps); [|discriminate|reflexivity|].
    + split; [eauto|]. intros (r & H & F). injection H as <-. exact F.
    + clear - E. revert ps E. induction l as [|v l IH]; intros ps H; cbn [map rseq] in H; [injection H as <-; reflexivity|].
      destruct (part (Ok v)); [|discriminate]. cbn [rbind] in H. destruct (rseq _) as [r|]; [|discriminate]. cbn [rbind] in H. injection H as <-. cbn [length]. f_equal. auto.
  - split; [intros [fs H]; discriminate|intros (r & H & _); discriminate].
Qed.
Lemma num_sub_iff : forall x0 x1, (exists v, num_sub x1 x0 = Ok v) <-> step_ok false x0 x1.
Proof.
  intros x0 x1. unfold num_sub, step_ok, is_float.
  destruct x1 as [|b1|z1|f1|p q|s|l|dt l|dt l|l], x0 as [|b0|z0|f0|p0 q0|s0|l0|dt0 l0|dt0 l0|l0]; cbn [as_num rbind whole];
    try (split; [intros [v H]; discriminate H|intros [[f H] [g G]]; discriminate]; fail);
    try (split; [intros [v H]; discriminate H|intros [[f H] G]; discriminate]; fail);
    try (split; [intros _ Q; discriminate Q|intros _; eexists; reflexivity]; fail);
    try (split; [intros _; split; eauto|intros _; eexists; reflexivity]; fail).
  all: rewrite <- int_real; (split; [intros [v H]; split; [eauto|]|intros [_ [g ->]]; eexists; reflexivity]);
    match type of H with context [py_float_of_int ?z] => destruct (py_float_of_int z) as [g|] end; [eauto|discriminate].
Qed.
Lemma step_weaken : forall x0 x1, step_ok true x0 x1 -> step_ok false x0 x1.
Proof. intros x0 x1. unfold step_ok. destruct (whole x0), (whole x1); auto. Qed.
Lemma mul_false : forall v, (exists w, bool_mul false v = Ok w) -> good Real (bool_mul false v).
Proof. intros v. unfold bool_mul, good. destruct v; cbn [as_num rbind]; intros [w H]; try discriminate; (eexists; split; [reflexivity|]); cbn; try exact Logic.I; reflexivity. Qed.
Lemma abscissa_iff : forall even x0 x1 dx, num_sub x1 x0 = Ok dx -> (good Real (bool_mul even x0) /\ good Real (bool_mul even dx) <-> step_ok even x0 x1).
Proof.
  intros even x0 x1 dx H. assert (S := proj1 (num_sub_iff x0 x1) (ex_intro _ dx H)). unfold num_sub in H.
  assert (G : forall z, good Real (Ok (VInt z)) <-> (Z.abs z < real_limit)%Z) by (intro; rewrite good_ok; reflexivity).
  assert (Z0 : (Z.abs 0 < real_limit)%Z) by reflexivity.
  assert (F : forall f, good Real (Ok (VFloat f)) <-> True) by (intro; rewrite good_ok; reflexivity).
  destruct even.
  - destruct x1 as [|b1|z1|f1|p q|s|l|dt l|dt l|l]; cbn [as_num rbind] in H; try discriminate H;
    destruct x0 as [|b0|z0|f0|p0 q0|s0|l0|dt0 l0|dt0 l0|l0]; cbn [as_num rbind] in H; try discriminate H; unfold step_ok in S |- *; cbn [whole] in S |- *;
    try (match type of H with context [py_float_of_int ?z] => destruct (py_float_of_int z) as [g|] eqn:Eg end; [|discriminate]; cbn [rbind] in H);
    injection H as <-; unfold bool_mul; cbn [as_num rbind]; rewrite ?G, ?F; try tauto.
  - split; [intros _; exact S|]. intros _. split; apply mul_false.
    + destruct x1 as [|b1|z1|f1|p q|s|l|dt l|dt l|l]; cbn [as_num rbind] in H; try discriminate H; destruct x0; cbn [as_num rbind] in H; try discriminate H; eexists; reflexivity.
    + destruct x1 as [|b1|z1|f1|p q|s|l|dt l|dt l|l]; cbn [as_num rbind] in H; try discriminate H; destruct x0; cbn [as_num rbind] in H; try discriminate H;
      try (match type of H with context [py_float_of_int ?z] => destruct (py_float_of_int z) as [g|] eqn:Eg end; [|discriminate]; cbn [rbind] in H); injection H as <-; eexists; reflexivity.
Qed.

(** The numbers of the data part. *)
Lemma num_line_scalar : forall ws l, Forall scalar (num_line ws l).
Proof.
  induction ws as [|[w p] ws IH]; intros [|f l]; cbn [num_line]; try (constructor; [left; reflexivity|constructor]).
  apply Forall_app. split; [apply rjust_scalar, fltch_scalar, fmt_e_chars|apply IH].
Qed.
Lemma num_lines_scalar : forall n ws l, Forall scalar (num_lines ws n l).
Proof. induction n as [|n IH]; intros ws l; cbn [num_lines]; [constructor|]. apply Forall_app. split; [apply num_line_scalar|apply IH]. Qed.
Lemma ok_lines : forall s, Forall scalar s -> ok_item (WTxt (Ok s)).
Proof. intros s H. exists s. auto. Qed.
Lemma block_ok : forall ws l, Forall ok_item (num_block ws l).
Proof.
  intros ws l. unfold num_block. constructor; [apply ok_lines, num_lines_scalar|]. destruct (Nat.ltb _ _); [|constructor]. constructor; [apply ok_lines, num_line_scalar|constructor].
Qed.
Lemma ascii_ok : forall dbl r even l, Forall ok_item (ascii58 dbl r even l).
Proof.
  intros dbl r even l. unfold ascii58. destruct dbl, even, r; try apply block_ok. constructor; [apply ok_lines, num_lines_scalar|constructor].
Qed.
Lemma raw_ok : forall l : list float, Forall ok_item (map (fun f => WRaw (pack_d f)) l).
Proof. intro l. rewrite List.Forall_map, Forall_forall. intros; exact Logic.I. Qed.

Definition is_cplx (dt : dtype) : bool := match dt with DCplx => true | _ => false end.
Lemma payload_iff : forall d dt l even x xs x0 x1, dget d (KS "data") = Some (VArr dt l) -> dget d (KS "x") = Some x -> entries x = Some xs ->
  nth_error xs 0 = Some x0 -> nth_error xs 1 = Some x1 ->
  ((exists fs, payload58 d (length l) (negb (is_cplx dt)) even = Ok fs) <-> nums dt l /\ (even = false -> length xs = length l /\ Forall real xs)).
Proof.
  intros d dt l even x xs x0 x1 Hd Hx E E0 E1. unfold payload58, ix. rewrite Hd, Hx. cbn [of_option rbind].
  assert (X := assign_x (length l) x xs x0 x1 E E0 E1).
  destruct (is_cplx dt) eqn:C; cbn [negb].
  - assert (dt = DCplx) as -> by (destruct dt; try discriminate C; reflexivity). unfold nums.
    assert (Re := parts_iff real_of DCplx l). assert (Im := parts_iff imag_of DCplx l).
    assert (R1 : Forall (fun e => good Real (real_of (Ok e))) l <-> Forall (takes Number) l).
    { rewrite !Forall_forall. split; intros H v Hv; specialize (H v Hv); [apply good_re, good_ok in H|apply good_re, good_ok]; exact H. }
    assert (I1 : Forall (takes Number) l -> Forall (fun e => good Real (imag_of (Ok e))) l).
    { intro H. rewrite Forall_forall in *. intros v Hv. apply good_im, good_ok, H, Hv. }
    rewrite R1 in Re. rewrite <- Im in I1. clear Im R1.
    destruct (arr_parts real_of (VArr DCplx l)) as [re|]; cbn [rbind] in Re |- *.
    2: { assert (N : ~ Forall (takes Number) l) by (intro F; apply Re in F as [? F]; discriminate). destruct even; [|destruct (assign_slice (length l) x); cbn [rbind]]; (split; [intros [fs H]; discriminate|tauto]). }
    destruct (assign_slice (length l) re) as [rs|]; cbn [rbind].
    2: { assert (N : ~ Forall (takes Number) l) by (intro F; apply Re in F as [? F]; discriminate). destruct even; [|destruct (assign_slice (length l) x); cbn [rbind]]; (split; [intros [fs H]; discriminate|tauto]). }
    assert (F : Forall (takes Number) l) by (apply Re; eauto). destruct (I1 F) as [is Hi].
    destruct (arr_parts imag_of (VArr DCplx l)) as [im|]; [|discriminate]. cbn [rbind] in Hi |- *. rewrite Hi. cbn [rbind].
    destruct even; [split; [intros _; split; [exact F|discriminate]|eauto]|].
    destruct (assign_slice (length l) x) as [fs|]; cbn [rbind].
    + split; [intros _; split; [exact F|intros _; apply X; eauto]|eauto].
    + split; [intros [fs H]; discriminate|]. intros [_ H]. apply X in H as [fs H]; [discriminate|reflexivity].
  - assert (Nk : nums dt l <-> Forall real l) by (destruct dt; try discriminate C; reflexivity). rewrite Nk.
    destruct even.
    + rewrite floats_iff. split; [intro H; split; [exact H|discriminate]|tauto].
    + assert (Y := assign_iff (length l) (VArr dt l) l ltac:(discriminate) eq_refl eq_refl).
      destruct (assign_slice (length l) x) as [fs|]; cbn [rbind].
      * destruct (assign_slice (length l) (VArr dt l)) as [gs|]; cbn [rbind].
        -- split; [intros _; split; [apply Y; eauto|intros _; apply X; eauto]|eauto].
        -- split; [intros [r H]; discriminate|]. intros [H _]. apply Y in H as [gs H]. discriminate.
      * split; [intros [r H]; discriminate|]. intros [_ H]. specialize (H eq_refl). apply X in H as [gs H]. discriminate.
Qed.

(** The header. *)
Definition top58 :=
  fields May Text ["id1"; "id2"; "id3"; "id4"; "id5"; "rsp_ent_name"; "ref_ent_name"; "abscissa_axis_lab"; "abscissa_axis_units_lab"; "ordinate_axis_lab"; "ordinate_axis_units_lab";
    "orddenom_axis_lab"; "orddenom_axis_units_lab"; "z_axis_axis_lab"; "z_axis_axis_units_lab"]
  ++ fields May Int ["func_id"; "ver_num"; "load_case_id"; "abscissa_spec_data_type"; "ordinate_spec_data_type"; "z_axis_spec_data_type";
    "abscissa_len_unit_exp"; "abscissa_force_unit_exp"; "abscissa_temp_unit_exp"; "ordinate_len_unit_exp"; "ordinate_force_unit_exp"; "ordinate_temp_unit_exp";
    "orddenom_len_unit_exp"; "orddenom_force_unit_exp"; "orddenom_temp_unit_exp"; "z_axis_len_unit_exp"; "z_axis_force_unit_exp"; "z_axis_temp_unit_exp"]
  ++ fields Must Int ["func_type"; "rsp_node"; "rsp_dir"; "ref_node"; "ref_dir"; "orddenom_spec_data_type"].
Definition lines_a (e : dict) : list item := map (fun k => txt "%-80s\n" [ix e k]) ["id1"; "id2"; "id3"; "id4"; "id5"]
  ++ [txt "%5i%10i%5i%10i %10s%10i%4i %10s%10i%4i\n" (map (ix e) ["func_type"; "func_id"; "ver_num"; "load_case_id"; "rsp_ent_name"; "rsp_node"; "rsp_dir"; "ref_ent_name"; "ref_node"; "ref_dir"])].
Definition lines_b (e : dict) : list item := [axis_line e "abscissa"; axis_line e "ordinate"; axis_line e "orddenom"; axis_line e "z_axis"].
Definition axis_src (p : string) : string * list src := ("%10i%5i%5i%5i %-20s %-20s\n",
  map (fun s => SField (p ++ s)%string) ["_spec_data_type"; "_len_unit_exp"; "_force_unit_exp"; "_temp_unit_exp"; "_axis_lab"; "_axis_units_lab"]).
Lemma lines_iff58 : forall e, Forall ok_item (lines_a e ++ lines_b e) <-> Forall (field_ok e) (must top58).
Proof.
  intro e. apply (scalar_plan0 (fun e => lines_a e ++ lines_b e) e (map (fun k => ("%-80s\n", [SField k])) ["id1"; "id2"; "id3"; "id4"; "id5"]
    ++ [("%5i%10i%5i%10i %10s%10i%4i %10s%10i%4i\n", map SField ["func_type"; "func_id"; "ver_num"; "load_case_id"; "rsp_ent_name"; "rsp_node"; "rsp_dir"; "ref_ent_name"; "ref_node"; "ref_dir"])]
    ++ map axis_src ["abscissa"; "ordinate"; "orddenom"; "z_axis"])); [intro; reflexivity|vm_compute; reflexivity].
Qed.
Lemma head_iff58 : forall p, Forall ok_item (header58 p) <-> Forall (field_ok (p_d p)) (must head58) /\ good Int (ix (p_d p) "ord_data_type") /\
  good Real (do v <- ix (p_d p) "abscissa_min" ;; bool_mul (p_even p) v) /\ good Real (bool_mul (p_even p) (p_dx p)).
Proof.
  intro p. set (e := p_d p).
  assert (E : header58 p = lines_a e ++ [txt "%10i%10i%10i%13.5e%13.5e%13.5e\n" [ix e "ord_data_type"; Tools.I (Z.of_nat (p_n p)); Ok (VBool (p_even p));
          (do v <- ix e "abscissa_min" ;; bool_mul (p_even p) v); bool_mul (p_even p) (p_dx p); ix e "z_axis_value"]] ++ lines_b e) by reflexivity.
  rewrite E. clear E. assert (L := lines_iff58 e). rewrite Forall_app in L. rewrite !Forall_app, Forall_cons_iff, ok_txt.
  change (parse_fmt SNorm "%10i%10i%10i%13.5e%13.5e%13.5e\n") with (repeat (FInt 10) 3 ++ repeat (FExp 13 5) 3 ++ [FLit LF]). cbn [repeat app fits kind_of].
  assert (Hm : Forall (field_ok e) (must head58) <-> Forall (field_ok e) (must top58) /\ good Real (ix e "z_axis_value")).
  { change (must head58) with (must (top58 ++ fields May Real ["z_axis_value"])). unfold must. rewrite map_app, Forall_app. fold (must top58). rewrite good_ix. cbn [fields map fst]. rewrite Forall_cons_iff.
    assert (N : Forall (field_ok e) []) by constructor. tauto. }
  rewrite Hm, <- L. assert (G1 : good Int (Tools.I (Z.of_nat (p_n p)))) by (apply good_ok; exact Logic.I). assert (G2 : good Int (Ok (VBool (p_even p)))) by (apply good_ok; exact Logic.I).
  assert (S : scalar LF) by (left; reflexivity). assert (N : Forall ok_item []) by constructor. tauto.
Qed.
Lemma must_same : forall defs d e t, (forall f, In f t -> dget e (KS (fst (fst f))) = match dget d (KS (fst (fst f))) with Some v => Some v | None => dget defs (KS (fst (fst f))) end) ->
  Forall (covers defs) t -> (Forall (field_ok e) (must t) <-> Forall (field_ok d) t).
Proof.
  intros defs d e t H C. unfold must. rewrite List.Forall_map. rewrite Forall_forall in C. rewrite !Forall_forall.
  assert (X : forall f, In f t -> (field_ok e (fst f, Must) <-> field_ok d f)).
  { intros [[nm k] nd] Hf. specialize (C _ Hf). specialize (H _ Hf). unfold covers in C. unfold field_ok. cbn [fst snd] in *. rewrite H. destruct (dget d (KS nm)) as [v|]; [reflexivity|].
    destruct nd, (dget defs (KS nm)) as [w|]; try contradiction; [split; discriminate|]. tauto. }
  split; intros F f Hf; apply (X f Hf), F, Hf.
Qed.
Lemma one_of_eq : forall v ks, eq_one_of v ks = true <-> exists n, In n ks /\ py_eqZ v n = true.
Proof. intros. apply existsb_exists. Qed.
Lemma ok_first : ok_item (txt "%6i\n%6i" [Tools.I (-1); Tools.I 58]).
Proof. apply ok_txt. cbn. unfold scalar. repeat split; try (eexists; split; [reflexivity|]; cbn; trivial); left; reflexivity. Qed.
Lemma ok_blank : ok_item (txt "%74s\n" [Sv " "]).
Proof. apply ok_txt. cbn. unfold scalar. repeat split; try (eexists; split; [reflexivity|]; cbn; repeat constructor); left; reflexivity. Qed.
Lemma ok_second : forall nb, ok_item (txt "b%6i%6i%12i%12i%6i%6i%12i%12i\n" [Tools.I 1; Tools.I 2; Tools.I 11; (do b <- nb ;; Ok (VInt b)); Tools.I 0; Tools.I 0; Tools.I 0; Tools.I 0]) <-> exists b : Z, nb = Ok b.
Proof.
  intro nb. rewrite ok_txt. change (parse_fmt SNorm "b%6i%6i%12i%12i%6i%6i%12i%12i\n") with (FLit 98 :: [FInt 6; FInt 6; FInt 12; FInt 12; FInt 6; FInt 6; FInt 12; FInt 12; FLit LF]).
  cbn [fits kind_of]. assert (G : forall z, good Int (Tools.I z)) by (intro; apply good_ok; exact Logic.I). assert (S : scalar LF) by (left; reflexivity). assert (S98 : scalar 98) by (left; reflexivity).
  assert (B : good Int (do b <- nb ;; Ok (VInt b)) <-> exists b : Z, nb = Ok b).
  { unfold good. destruct nb as [b|]; cbn [rbind]; [split; [eauto|]; intros _; eexists; split; [reflexivity|exact Logic.I]|]. split; [intros (v & H & _); discriminate|intros [b H]; discriminate]. }
  rewrite B. split; [tauto|]. intro. repeat split; auto.
Qed.

(** The items after the dictionary is completed. *)
Definition items58 (ov : bool) (p : pre58) : list item :=
  txt "%6i\n%6i" [Tools.I (-1); Tools.I 58]
  :: match (do v <- ix (p_d p) "binary" ;; truthy v) with
     | Err e => [WTxt (Err e)]
     | Ok bin =>
         (if bin
          then txt "b%6i%6i%12i%12i%6i%6i%12i%12i\n" [Tools.I 1; Tools.I 2; Tools.I 11; (do b <- p_nb p ;; Ok (VInt b)); Tools.I 0; Tools.I 0; Tools.I 0; Tools.I 0]
          else txt "%74s\n" [Sv " "])
         :: header58 p
         ++ match payload58 (p_d p) (p_n p) (p_r p) (p_even p) with
            | Err e => [WTxt (Err e)]
            | Ok l =>
                (if bin
                 then (if ov then [WTrunc] else []) ++ map (fun f => WRaw (pack_d f)) l ++ (if ov then [WTrunc] else [])
                 else match p_dbl p with
                      | Ok dbl => ascii58 dbl (p_r p) (p_even p) l
                      | Err e => [WTxt (Err e)]
                      end)
                ++ [end_line]
            end
     end.
Lemma items58_iff : forall ov p, (p_nb p = do b <- p_dbl p ;; Ok (Z.of_nat (p_n p) * (if b then 8 else 4))%Z) ->
  (Forall ok_item (items58 ov p) <-> (exists b, (do v <- ix (p_d p) "binary" ;; truthy v) = Ok b) /\ (exists b, p_dbl p = Ok b) /\ Forall ok_item (header58 p)
    /\ exists fs, payload58 (p_d p) (p_n p) (p_r p) (p_even p) = Ok fs).
Proof.
  intros ov p Hnb. unfold items58. rewrite Forall_cons_iff.
  destruct (do v <- ix (p_d p) "binary" ;; truthy v) as [bin|e].
  2: { split; [intros [_ H]; apply not_ok1 in H; destruct H|]. intros ([b H] & _). discriminate. }
  rewrite Forall_cons_iff, Forall_app. assert (F := ok_first).
  destruct (payload58 _ _ _ _) as [l|e].
  2: { split; [intros (_ & _ & _ & H); apply not_ok1 in H; destruct H|]. intros (_ & _ & _ & [b H]). discriminate. }
  rewrite Forall_snoc, ok_end. destruct bin.
  - rewrite ok_second, Hnb.
    assert (B : (exists b, (do b <- p_dbl p ;; Ok (Z.of_nat (p_n p) * (if b then 8 else 4))%Z) = Ok b) <-> exists b, p_dbl p = Ok b)
      by (destruct (p_dbl p) as [b|]; cbn [rbind]; [split; eauto|split; intros [b H]; discriminate]).
    rewrite B. assert (R : Forall ok_item ((if ov then [WTrunc] else []) ++ map (fun f => WRaw (pack_d f)) l ++ (if ov then [WTrunc] else []))).
    { apply Forall_app. split; [destruct ov; repeat constructor|]. apply Forall_app. split; [apply raw_ok|destruct ov; repeat constructor]. }
    split; [intros (_ & Q1 & Q2 & _); repeat split; eauto|]. intros (_ & Q1 & Q2 & _). repeat split; auto.
  - assert (Bl := ok_blank). destruct (p_dbl p) as [dbl|e].
    + assert (As := ascii_ok dbl (p_r p) (p_even p) l). split; [intros (_ & _ & Q1 & _); repeat split; eauto|]. intros (W1 & W2 & W3 & W4). repeat split; auto.
    + split; [intros (_ & _ & _ & H & _); apply not_ok1 in H; destruct H|]. intros (_ & [b H] & _). discriminate.
Qed.

Lemma flag_get : forall d e k v0, dget e (KS k) = match dget d (KS k) with Some v => Some v | None => Some v0 end -> truthy v0 = Ok false ->
  forall b, (do v <- ix e k ;; truthy v) = Ok b <-> flag d k b.
Proof.
  intros d e k v0 H H0 b. unfold flag, ix. rewrite H. destruct (dget d (KS k)) as [v|]; cbn [of_option rbind]; [reflexivity|]. rewrite H0. split; congruence.
Qed.
Theorem C72_58 : forall c m fd file u d dt l, dget d (KS "type") = Some (VInt 58) -> dget d (KS "data") = Some (VArr dt l) ->
  (w_exc (write_set c m fd file u d) = None <-> function_ok fd d dt l).
Proof.
  intros c m fd file u d dt l Ht Hd.
  set (l' := map nan_to_num_elt l). set (d1 := dput d (KS "data") (VArr dt l')). set (ov := match m with Overwrite => true | Add => false end).
  assert (A : w_exc (write_set c m fd file u d) = None <-> Forall ok_item (wp_items (write58 ov fd d1))).
  { unfold write_set. rewrite Ht, Hd. cbn [np_nan_to_num np_asarray rbind fst snd]. fold l'. fold d1.
    change (write_dispatch c m fd (VInt 58) d1) with (write58 ov fd d1).
    rewrite <- (run_ok _ (match m, file with Add, Some b => b | _, _ => [] end)).
    destruct (run_items _ (wp_items (write58 ov fd d1))) as [b [e|]]; cbn [snd w_exc]; [split; discriminate|]. rewrite refresh_some. cbn [w_exc]. tauto. }
  rewrite A. clear A. unfold write58. cbv zeta.
  assert (G1 : forall k, k <> "data" -> dget d1 (KS k) = dget d (KS k)).
  { intros k Hk. unfold d1. rewrite dget_dput. destruct (key_eqb_spec (KS k) (KS "data")); [congruence|reflexivity]. }
  unfold ix at 1. rewrite (G1 "func_type") by discriminate. unfold function_ok. fold (nums dt l).
  assert (FT : forall v, dget d (KS "func_type") = Some v -> Forall (field_ok d) head58 -> integral v).
  { intros v Hv H. rewrite Forall_forall in H. specialize (H ("func_type", Int, Must) ltac:(cbn; tauto)). unfold field_ok in H. cbn [fst snd] in H. rewrite Hv in H. exact H. }
  destruct (dget d (KS "func_type")) as [ft|] eqn:Eft; cbn [of_option].
  2: { cbn [wp_items]. split; [intro H; apply not_ok1 in H; destruct H|]. intros (_ & (v & E & _) & _). congruence. }
  destruct (eq_one_of ft [0; 1; 2; 3; 4; 6; 9]%Z) eqn:Eo; cbn [negb].
  2: { cbn [wp_items]. split; [intro H; apply not_ok1 in H; destruct H|]. intros (_ & (v & E & _ & O) & _). rewrite Eft in E. injection E as <-. apply one_of_eq in O. congruence. }
  assert (Oft : Forall (field_ok d) head58 -> one_of d "func_type" [0; 1; 2; 3; 4; 6; 9]%Z).
  { intro H. exists ft. split; [exact Eft|]. split; [apply FT; auto|]. apply one_of_eq. exact Eo. }
  set (e := opt_fields d1 defaults58).
  assert (Ge : forall k, k <> "data" -> dget e (KS k) = match dget d (KS k) with Some v => Some v | None => dget defaults58 (KS k) end).
  { intros k Hk. unfold e. rewrite opt_fields_get, (G1 k Hk). reflexivity. }
  assert (Gd : dget e (KS "data") = Some (VArr dt l')) by (unfold e, d1; rewrite opt_fields_get, dget_dput; reflexivity).
  clearbody e. clear G1. clearbody d1. clear d1.
  unfold prepare58_write. unfold ix at 1. rewrite Gd. cbn [of_option rbind]. unfold py_len at 1. cbn [to_seq rbind].
  assert (Ec : np_iscomplex (VArr dt l') = Ok (is_cplx dt)) by (destruct dt; reflexivity). rewrite Ec. clear Ec. cbn [rbind]. cbv zeta.
  set (e1 := if fd then dput e (KS "ord_data_type") (VInt (if is_cplx dt then 6 else 4)) else e).
  assert (Ge1 : forall k, k <> "ord_data_type" -> dget e1 (KS k) = dget e (KS k)).
  { intros k Hk. unfold e1. destruct fd; [|reflexivity]. rewrite dget_dput. destruct (key_eqb_spec (KS k) (KS "ord_data_type")); [congruence|reflexivity]. }
  assert (Ho : dget e1 (KS "ord_data_type") = if fd then Some (VInt (if is_cplx dt then 6 else 4)) else dget d (KS "ord_data_type")).
  { unfold e1. destruct fd; [rewrite dget_dput; reflexivity|]. rewrite (Ge "ord_data_type") by discriminate. destruct (dget d (KS "ord_data_type")); reflexivity. }
  clearbody e1. unfold ix at 1. rewrite Ho.
  destruct (if fd then Some (VInt (if is_cplx dt then 6 else 4)) else dget d (KS "ord_data_type")) as [odt|] eqn:Eod; cbn [of_option rbind].
  2: { destruct fd; [discriminate|]. cbn [wp_items]. split; [intro H; apply not_ok1 in H; destruct H|]. intros (_ & _ & O & _). destruct (O eq_refl) as (v & E & _). congruence. }
  set (dbl := if eq_one_of odt [4; 6]%Z then Ok true else if eq_one_of odt [2; 5]%Z then Ok false else Err UnboundLocalError : result bool).
  assert (Od : (exists b, dbl = Ok b) /\ integral odt <-> (fd = false -> one_of d "ord_data_type" [4; 6; 2; 5]%Z)).
  { assert (Q : (exists b, dbl = Ok b) <-> exists n, In n [4; 6; 2; 5]%Z /\ py_eqZ odt n = true).
    { rewrite <- one_of_eq. unfold dbl, eq_one_of. cbn [existsb]. destruct (py_eqZ odt 4), (py_eqZ odt 6), (py_eqZ odt 2), (py_eqZ odt 5); cbn [orb]; (split; [try reflexivity; intros [b H]; discriminate|intro; try discriminate; eauto]). }
    rewrite Q. destruct fd.
    - injection Eod as <-. split; [discriminate|]. intros _. split; [|exact Logic.I]. destruct (is_cplx dt); [exists 6%Z|exists 4%Z]; (split; [cbn; tauto|reflexivity]).
    - split.
      + intros [H1 H2] _. exists odt. auto.
      + intro H. destruct (H eq_refl) as (v & E & H1 & H2). rewrite Eod in E. injection E as <-. auto. }
  set (nb := do b <- dbl ;; Ok (Z.of_nat (length l') * (if b then 8 else 4))%Z).
  assert (Hll : length l' = length l) by (unfold l'; apply map_length).
  (* the entry n_bytes *)
  destruct (if dmem e1 (KS "n_bytes") then do b <- nb ;; Ok (dput e1 (KS "n_bytes") (VInt b)) else Ok e1) as [e2|ex] eqn:En; cbn [rbind].
  2: { cbn [wp_items]. split; [intro H; apply not_ok1 in H; destruct H|]. intros (_ & _ & O & _). apply Od in O as [[b O] _]. unfold nb in En. rewrite O in En. cbn [rbind] in En. destruct (dmem e1 (KS "n_bytes")); discriminate. }
  assert (Ge2 : forall k, k <> "n_bytes" -> dget e2 (KS k) = dget e1 (KS k)).
  { intros k Hk. destruct (dmem e1 (KS "n_bytes")); [|injection En as <-; reflexivity]. destruct nb as [b|]; [|discriminate]. cbn [rbind] in En. injection En as <-.
    rewrite dget_dput. destruct (key_eqb_spec (KS k) (KS "n_bytes")); [congruence|reflexivity]. }
  clear En.
  assert (Gs : forall k, k <> "data" -> k <> "ord_data_type" -> k <> "n_bytes" -> dget e2 (KS k) = match dget d (KS k) with Some v => Some v | None => dget defaults58 (KS k) end).
  { intros k K1 K2 K3. rewrite Ge2, Ge1, Ge by assumption. reflexivity. }
  assert (Sp := flag_get d e2 "abscissa_spacing" (VInt 0) ltac:(rewrite Gs by discriminate; reflexivity) eq_refl).
  assert (Spe : forall (A : Type) (k : bool -> result A), (do sp <- ix e2 "abscissa_spacing" ;; do ev <- truthy sp ;; k ev) = (do ev <- (do v <- ix e2 "abscissa_spacing" ;; truthy v) ;; k ev)).
  { intros B k. destruct (ix e2 "abscissa_spacing"); reflexivity. }
  rewrite Spe. clear Spe. destruct (do v <- ix e2 "abscissa_spacing" ;; truthy v) as [even|ex]; cbn [rbind].
  2: { cbn [wp_items]. split; [intro H; apply not_ok1 in H; destruct H|]. intros (_ & _ & _ & _ & _ & ev & x & xs & x0 & x1 & S & _). apply Sp in S. discriminate. }
  assert (Hx : dget e2 (KS "x") = dget d (KS "x")) by (rewrite Gs by discriminate; destruct (dget d (KS "x")); reflexivity).
  assert (Xi : forall i, at_ (ix e2 "x") (Z.of_nat i) = match dget d (KS "x") with None => Err (KeyError "x") | Some x => match entries x with None => Err TypeError | Some xs => of_option IndexError (nth_error xs i) end end).
  { intro i. unfold at_, ix. rewrite Hx. destruct (dget d (KS "x")) as [x|]; cbn [of_option rbind]; [|reflexivity]. rewrite to_seq_entries. destruct (entries x) as [xs|]; cbn [rbind]; [|reflexivity].
    apply py_nth_nat. }
  change (at_ (ix e2 "x") 0) with (at_ (ix e2 "x") (Z.of_nat 0)). rewrite (Xi 0).
  assert (Nx : forall x0, at_ (ix (dput e2 (KS "abscissa_min") x0) "x") 1 = at_ (ix e2 "x") (Z.of_nat 1)).
  { intro x0. unfold ix. rewrite dget_dput. reflexivity. }
  destruct (dget d (KS "x")) as [x|] eqn:Ex.
  2: { cbn [rbind wp_items]. split; [intro H; apply not_ok1 in H; destruct H|]. intros (_ & _ & _ & _ & _ & ev & x & xs & x0 & x1 & _ & S & _). discriminate. }
  destruct (entries x) as [xs|] eqn:Exs.
  2: { cbn [rbind wp_items]. split; [intro H; apply not_ok1 in H; destruct H|]. intros (_ & _ & _ & _ & _ & ev & y & ys & x0 & x1 & _ & S & S2 & _). congruence. }
  destruct (nth_error xs 0) as [x0|] eqn:E0; cbn [of_option rbind].
  2: { cbn [wp_items]. split; [intro H; apply not_ok1 in H; destruct H|]. intros (_ & _ & _ & _ & _ & ev & y & ys & x0 & x1 & _ & S & S2 & S3 & _). congruence. }
  rewrite Nx, (Xi 1). destruct (nth_error xs 1) as [x1|] eqn:E1; cbn [of_option rbind].
  2: { cbn [wp_items]. split; [intro H; apply not_ok1 in H; destruct H|]. intros (_ & _ & _ & _ & _ & ev & y & ys & x2 & x1 & _ & S & S2 & S3 & S4 & _). congruence. }
  destruct (num_sub x1 x0) as [dx|ex] eqn:Edx; cbn [rbind].
  2: { cbn [wp_items]. split; [intro H; apply not_ok1 in H; destruct H|]. intros (_ & _ & _ & _ & _ & ev & y & ys & x2 & x3 & _ & S & S2 & S3 & S4 & S5 & _).
       assert (x2 = x0) as -> by congruence. assert (x3 = x1) as -> by congruence. assert (S6 : step_ok false x0 x1) by (destruct ev; [apply step_weaken|]; exact S5).
       apply num_sub_iff in S6 as [v S6]. congruence. }
  cbn [wp_items].
  set (p := {| p_d := dput e2 (KS "abscissa_min") x0; p_n := length l'; p_r := negb (is_cplx dt); p_dbl := dbl; p_nb := nb; p_even := even; p_dx := dx |}).
  match goal with |- _ <-> ?R => change (Forall ok_item (items58 ov p) <-> R) end.
  rewrite items58_iff by reflexivity. rewrite head_iff58.
  assert (Gp : forall k, k <> "abscissa_min" -> dget (p_d p) (KS k) = dget e2 (KS k)).
  { intros k Hk. cbn [p p_d]. rewrite dget_dput. destruct (key_eqb_spec (KS k) (KS "abscissa_min")); [congruence|reflexivity]. }
  assert (Bi : forall b, (do v <- ix (p_d p) "binary" ;; truthy v) = Ok b <-> flag d "binary" b).
  { apply (flag_get d (p_d p) "binary" (VInt 0)); [|reflexivity]. rewrite Gp, Gs by discriminate. reflexivity. }
  assert (Pa : (exists fs, payload58 (p_d p) (p_n p) (p_r p) (p_even p) = Ok fs) <-> nums dt l /\ (even = false -> length xs = length l /\ Forall real xs)).
  { rewrite <- nan_nums. fold l'. rewrite <- Hll. apply (payload_iff (p_d p) dt l' even x xs x0 x1); try assumption.
    - rewrite Gp, Ge2, Ge1 by discriminate. exact Gd.
    - rewrite Gp by discriminate. exact Hx. }
  assert (Hh : Forall (field_ok (p_d p)) (must head58) <-> Forall (field_ok d) head58).
  { apply (must_same defaults58).
    - intros f Hf. assert (K : In (fst (fst f)) (map (fun f => fst (fst f)) head58)) by (apply (in_map (fun f => fst (fst f))); exact Hf). clear Hf. generalize dependent (fst (fst f)). intros k K.
      assert (N : k <> "abscissa_min" /\ k <> "data" /\ k <> "ord_data_type" /\ k <> "n_bytes").
      { assert (Q : forallb (fun k => negb (existsb (String.eqb k) ["abscissa_min"; "data"; "ord_data_type"; "n_bytes"])) (map (fun f => fst (fst f)) head58) = true) by (vm_compute; reflexivity).
        rewrite forallb_forall in Q. specialize (Q k K). apply negb_true_iff in Q. repeat split; intros ->; discriminate Q. }
      destruct N as (N1 & N2 & N3 & N4). rewrite Gp, Gs by assumption. reflexivity.
    - unfold head58, fields. cbn [map app]. repeat (apply Forall_cons; [first [exact Logic.I|exact (lits_writable "NONE")|exact (eq_refl Lt)]|]). apply Forall_nil. }
  rewrite Hh, Pa. clear Hh Pa.
  assert (Gi : good Int (ix (p_d p) "ord_data_type") <-> integral odt).
  { unfold ix. rewrite Gp, Ge2, Ho by discriminate. cbn [of_option]. apply good_ok. }
  assert (Gm : (do v <- ix (p_d p) "abscissa_min" ;; bool_mul (p_even p) v) = bool_mul even x0) by (cbn [p p_d p_even]; unfold ix; rewrite dget_dput; reflexivity).
  rewrite Gi, Gm. change (p_even p) with even. change (p_dx p) with dx. change (p_dbl p) with dbl. rewrite (abscissa_iff even x0 x1 dx Edx). rewrite <- Od.
  assert (B2 : (exists b, (do v <- ix (p_d p) "binary" ;; truthy v) = Ok b) <-> exists b, flag d "binary" b) by (split; intros [b H]; exists b; apply Bi; exact H).
  rewrite B2. clear - Oft Sp E0 E1 Exs. split.
  - intros (H1 & H2 & (H3 & H4 & H5) & H6 & H7). split; [exact H3|]. split; [apply Oft; exact H3|]. split; [auto|]. split; [exact H1|]. split; [exact H6|].
    exists even, x, xs, x0, x1. split; [apply Sp; reflexivity|]. auto 10.
  - intros (H1 & _ & (H2 & H3) & H4 & H5 & ev & y & ys & y0 & y1 & S1 & S2 & S3 & S4 & S5 & S6 & S7). apply Sp in S1. injection S1 as <-. injection S2 as <-.
    rewrite Exs in S3. injection S3 as <-. rewrite E0 in S4. injection S4 as <-. rewrite E1 in S5. injection S5 as <-. auto 10.
Qed.
Print Assumptions C72_58.

(* ------------------------------------------------------------------ *)
(** ** Example *)

Definition d58_ok := [("func_type", VInt 1); ("rsp_node", VInt 1); ("rsp_dir", VInt 3); ("ref_node", VInt 2); ("ref_dir", VInt (-3)); ("orddenom_spec_data_type", VInt 13);
  ("x", VArr DFloat [vf 0; vf 1; vf 2]); ("data", VArr DFloat [vf 1; VFloat S754_nan; vf 3])].
(** Refused: no data, no "orddenom_spec_data_type" (it has no default), another
    function type, one abscissa only, uneven spacing with too few abscissas, a text
    as spacing flag is taken as true, an array is refused. *)
Example C72_58_example : map (fun d => refused (with_type 58 d))
  [d58_ok; except "data" d58_ok; except "orddenom_spec_data_type" d58_ok; set "func_type" (VInt 5) d58_ok; set "x" (VArr DFloat [vf 0]) d58_ok; set "x" (VArr DFloat [vf 0; vf 1]) d58_ok;
   set "x" (VArr DFloat [vf 0; vf 1]) (set "abscissa_spacing" (VInt 1) d58_ok); set "abscissa_spacing" (VStr (lit "even")) d58_ok; set "id3" (VStr [55296%N]) d58_ok; set "binary" (VInt 1) d58_ok;
   set "data" (VArr DCplx [VCplx (float_of_Z 1) (float_of_Z 2)]) (set "abscissa_spacing" (VInt 1) d58_ok)]
  = [false; true; true; true; true; true; false; false; true; false; false].
Proof. vm_compute. reflexivity. Qed.
