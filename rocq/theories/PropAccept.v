(** Property C72: which sets are written.  A call is accepted exactly if the
    dictionary has the required fields, of the right kinds.  The kinds are in
    Accept.v.  Values whose formatting is not modelled (a float for [%s], an array
    for a scalar field) count as refused. *)
From Coq Require Import String List NArith ZArith Bool QArith Lia.
Import ListNotations.
From Verif Require Import PyBase PyNum PyVal Utf8 Tools Facts IntFacts QFacts FloatFacts FloatText DictFacts DsNodes DsHeaders DsGroups Ds55 Ds2414 Uff
  Container Append Utf8Facts Lines Cells PropNumeral Accept.
From Coq Require Import Lia.
Open Scope string_scope.
Open Scope list_scope.
Open Scope nat_scope.

(* ------------------------------------------------------------------ *)
(** ** Headers *)

Definition table151 := fields Must Text ["model_name"; "description"; "db_app"; "program"]
  ++ fields May Text ["version_db1"; "version_db2"; "file_type"; "date_db_created"; "time_db_created"; "date_db_saved"; "time_db_saved"; "date_file_written"; "time_file_written"].
Theorem C72_151 : forall c m fd file u d, dget d (KS "type") = Some (VInt 151) -> dget d (KS "data") = None ->
  Forall writable_char (now_date c) -> Forall writable_char (now_time c) ->
  (w_exc (write_set c m fd file u d) = None <-> Forall (field_ok d) table151).
Proof.
  intros c m fd file u d Ht Hd Hc1 Hc2. rewrite (accepted _ _ _ _ _ _ _ Ht Hd). change (write_dispatch c m fd (VInt 151) d) with (write151 c d). unfold write151. cbn [wp_items].
  scalar_items d (map (fun n => (n, Text)) ["version_db1"; "version_db2"; "file_type"; "date_db_created"; "time_db_created"; "date_db_saved"; "time_db_saved"; "date_file_written"; "time_file_written"])
    [HDR 151; ("%-80s\n", [SField "model_name"]); ("%-80s\n", [SField "description"]); ("%-80s\n", [SField "db_app"]);
     ("%-10s%-10s%10s%10s%10s\n", map SField ["date_db_created"; "time_db_created"; "version_db1"; "version_db2"; "file_type"]);
     ("%-10s%-10s\n", map SField ["date_db_saved"; "time_db_saved"]); ("%-80s\n", [SField "program"]);
     ("%-10s%-10s\n", map SField ["date_file_written"; "time_file_written"]); END].
  repeat constructor; cbn [snd takes textual]; auto using lits_writable.
Qed.
Print Assumptions C72_151.

Definition table164 := fields Must Int ["units_code"] ++ fields Must Real ["length"; "force"; "temp"; "temp_offset"]
  ++ fields May Text ["units_description"] ++ fields May Int ["temp_mode"].
Lemma replace2_scalar : forall a1 a2 b1 b2 n s, length s <= n -> Forall scalar s -> scalar b1 -> scalar b2 -> Forall scalar (replace2 a1 a2 b1 b2 s).
Proof.
  intros a1 a2 b1 b2. induction n as [|n IH]; intros s L F B1 B2; [destruct s; [constructor|cbn in L; lia]|].
  destruct s as [|c [|c' r]]; [constructor|exact F|]. cbn [replace2]. inversion F as [|x y Hc Hr]; subst. inversion Hr as [|x y Hc' Hr']; subst.
  cbn [length] in L. destruct ((c =? a1) && (c' =? a2))%N.
  - constructor; [exact B1|]. constructor; [exact B2|]. apply IH; auto. lia.
  - constructor; [exact Hc|]. apply (IH (c' :: r)); auto. cbn [length]. lia.
Qed.
Lemma replace2_back : forall a1 a2 b1 b2 n s, length s <= n -> scalar a1 -> scalar a2 -> Forall scalar (replace2 a1 a2 b1 b2 s) -> Forall scalar s.
Proof.
  intros a1 a2 b1 b2. induction n as [|n IH]; intros s L A1 A2 F; [destruct s; [constructor|cbn in L; lia]|].
  destruct s as [|c [|c' r]]; [constructor|exact F|]. cbn [replace2] in F. cbn [length] in L.
  destruct (N.eqb_spec c a1) as [->|]; [destruct (N.eqb_spec c' a2) as [->|]|]; cbn [andb] in F; inversion F as [|x y Hc Hr]; subst.
  - inversion Hr; subst. constructor; [exact A1|]. constructor; [exact A2|]. apply IH; auto. lia.
  - constructor; [exact Hc|]. apply (IH (c' :: r)); auto. cbn [length]. lia.
  - constructor; [exact Hc|]. apply (IH (c' :: r)); auto. cbn [length]. lia.
Qed.
Lemma e_to_D_ok : forall r, ok_item (WTxt (do s <- r ;; Ok (e_to_D s))) <-> ok_item (WTxt r).
Proof.
  intros [s|e]; cbn [rbind ok_item]; [|split; intros (x & E & _); discriminate].
  split; intros (x & E & F); injection E as <-; eexists; (split; [reflexivity|]).
  - unfold e_to_D in F. apply (replace2_back _ _ _ _ _ _ (le_n _)) in F; [|left; reflexivity..]. apply (replace2_back _ _ _ _ _ _ (le_n _)) in F; [exact F|left; reflexivity..].
  - unfold e_to_D. apply (replace2_scalar _ _ _ _ _ _ (le_n _)); [|left; reflexivity..]. apply (replace2_scalar _ _ _ _ _ _ (le_n _)); [exact F|left; reflexivity..].
Qed.
Lemma Forall_same : forall A (P Q : A -> Prop) l l', Forall2 (fun x y => P x <-> Q y) l l' -> (Forall P l <-> Forall Q l').
Proof. intros A P Q l l' H. induction H; [split; constructor|]. rewrite !Forall_cons_iff, H, IHForall2. reflexivity. Qed.
Theorem C72_164 : forall c m fd file u d, dget d (KS "type") = Some (VInt 164) -> dget d (KS "data") = None ->
  (w_exc (write_set c m fd file u d) = None <-> Forall (field_ok d) table164).
Proof.
  intros c m fd file u d Ht Hd. rewrite (accepted _ _ _ _ _ _ _ Ht Hd). change (write_dispatch c m fd (VInt 164) d) with (write164 d). unfold write164. cbn [wp_items].
  transitivity (Forall ok_item (let d1 := opt_fields d [(KS "units_description", VStr (lit "User unit system")); (KS "temp_mode", VInt 1)] in
    [hdr_lines 164; txt "%10i%20s%10i\n" [ix d1 "units_code"; ix d1 "units_description"; ix d1 "temp_mode"];
     txt "%25.16e%25.16e%25.16e\n%25.16e\n" [ix d1 "length"; ix d1 "force"; ix d1 "temp"; ix d1 "temp_offset"]; end_line])).
  - apply Forall_same. cbv zeta. repeat (apply Forall2_cons || apply Forall2_nil); try reflexivity. apply e_to_D_ok.
  - cbv zeta. scalar_items d [("units_description", Text); ("temp_mode", Int)]
      [HDR 164; ("%10i%20s%10i\n", map SField ["units_code"; "units_description"; "temp_mode"]);
       ("%25.16e%25.16e%25.16e\n%25.16e\n", map SField ["length"; "force"; "temp"; "temp_offset"]); END].
    repeat constructor; cbn [snd takes textual]; auto using lits_writable.
Qed.
Print Assumptions C72_164.

Definition table1858 :=
  fields Must Int ["record_num"; "octave_format"; "measurement_run"; "weighting_type"; "window_type"; "amplitude_units"; "normalization_method";
    "abscissa_data_type_qualifier"; "ordinate_numerator_data_type_qualifier"; "ordinate_denominator_data_type_qualifier"; "z_axis_data_type_qualifier"; "sampling_type"]
  ++ fields Must Real ["z_rpm_value"; "z_time_value"; "z_order_value"; "num_of_samples"; "user_value_1"; "user_value_2"; "user_value_3"; "user_value_4"; "exponential_window_damping_factor"]
  ++ fields Must Text ["response_direction"; "reference_direction"].
Theorem C72_1858 : forall c m fd file u d, dget d (KS "type") = Some (VInt 1858) -> dget d (KS "data") = None ->
  (w_exc (write_set c m fd file u d) = None <-> Forall (field_ok d) table1858).
Proof.
  intros c m fd file u d Ht Hd. rewrite (accepted _ _ _ _ _ _ _ Ht Hd). change (write_dispatch c m fd (VInt 1858) d) with (write1858 d). unfold write1858. cbn [wp_items].
  scalar_items0 d
    [HDR 1858; ("%10i%10i%10i%10i%10i%10i\n", map SField ["record_num"; "octave_format"; "measurement_run"] ++ repeat (SConst (VInt 0)) 3);
     ("%6i%6i%6i%6i%6i%6i%6i%6i%6i%6i%6i%6i\n", map SField ["weighting_type"; "window_type"; "amplitude_units"; "normalization_method"; "abscissa_data_type_qualifier";
        "ordinate_numerator_data_type_qualifier"; "ordinate_denominator_data_type_qualifier"; "z_axis_data_type_qualifier"; "sampling_type"] ++ repeat (SConst (VInt 0)) 3);
     ("%15.7e%15.7e%15.7e%15.7e%15.7e\n", map SField ["z_rpm_value"; "z_time_value"; "z_order_value"; "num_of_samples"] ++ [SConst (VInt 0)]);
     ("%15.7e%15.7e%15.7e%15.7e%15.7e\n", map SField ["user_value_1"; "user_value_2"; "user_value_3"; "user_value_4"; "exponential_window_damping_factor"]);
     ("%15.7e%15.7e%15.7e%15.7e%15.7e\n", repeat (SConst (VInt 0)) 5);
     ("%-4s%2s%-4s\n", [SField "response_direction"; SConst (VStr (lit "")); SField "reference_direction"]); ("%-80s\n", [SConst (VStr (lit "NONE"))]); END].
Qed.
Print Assumptions C72_1858.

Definition table2400 :=
  fields May Int ["model_uid"; "entity_type"; "entity_subtype"; "version_number"; "idm_version_id"; "idm_item_id"; "primary_parent_uid"; "optimization_switches"]
  ++ fields May Text ["entity_name"; "part_number"; "date"; "time"] ++ fields May Ints ["status_mask"].
Definition int_cell (w : nat) (e : pyval) : result str := fmt_specs [FInt w] [e].
Lemma int_cell_ok : forall w v, (exists s, int_cell w v = Ok s) <-> integral v.
Proof.
  intros w v. unfold int_cell. cbn [fmt_specs]. rewrite <- integral_iff. destruct (fmt_int_arg v); cbn [rbind]; split; intros [x H]; try discriminate; eauto.
Qed.
Lemma int_cell_scalar : forall w v s, int_cell w v = Ok s -> Forall scalar s.
Proof.
  intros w v s. unfold int_cell. cbn [fmt_specs]. destruct (fmt_int_arg v); [|discriminate]. cbn [rbind]. intro H. injection H as <-. rewrite app_nil_r.
  apply rjust_scalar, numch_scalar, dec_Z_numch.
Qed.
Lemma rmap_ints : forall w l, (exists parts, rmap (int_cell w) l = Ok parts) <-> Forall integral l.
Proof.
  intros w. induction l as [|v l IH]; [split; [constructor|intros _; exists []; reflexivity]|]. rewrite Forall_cons_iff, <- IH, <- (int_cell_ok w). unfold rmap. cbn [map rseq].
  split.
  - intros (p & H). destruct (int_cell w v) as [z|]; [|discriminate]. cbn [rbind] in H. destruct (rseq _) as [q|]; [|discriminate]. eauto.
  - intros ((z & Hz) & p & H). rewrite Hz. cbn [rbind]. rewrite H. cbn [rbind]. eauto.
Qed.
Lemma rmap_scalar : forall w l parts, rmap (int_cell w) l = Ok parts -> Forall scalar (concat parts).
Proof.
  intro w. unfold rmap. induction l as [|v l IH]; intros parts H; cbn [map rseq] in H; [injection H as <-; constructor|].
  destruct (int_cell w v) as [z|] eqn:Ez; [|discriminate]. cbn [rbind] in H. destruct (rseq _) as [q|] eqn:E; [|discriminate]. injection H as <-. cbn [concat].
  apply Forall_app. split; [exact (int_cell_scalar _ _ _ Ez)|apply IH; reflexivity].
Qed.
Lemma mask_ok : forall r, ok_item (WTxt (do v <- r ;; do l <- to_seq v ;; do parts <- rmap (fun e => pct "%2i" [Ok e]) l ;; pct "%s\n" [Ok (VStr (concat parts))])) <-> good Ints r.
Proof.
  intro r. unfold good. cbn [takes ok_item]. destruct r as [v|e]; cbn [rbind]; [|split; [intros (s & E & _)|intros (s & E & _)]; discriminate].
  rewrite to_seq_entries. destruct (entries v) as [l|] eqn:El; cbn [rbind].
  - change (fun e => pct "%2i" [Ok e]) with (int_cell 2). split.
    + intros (s & H & _). destruct (rmap _ l) as [p|] eqn:E; [|discriminate]. exists v. split; [reflexivity|]. exists l. split; [exact El|]. apply (rmap_ints 2). eauto.
    + intros (v' & Ev & l' & El' & F). injection Ev as <-. rewrite El in El'. injection El' as <-. apply (rmap_ints 2) in F as [p Hp]. rewrite Hp. cbn [rbind].
      apply (proj2 (ok_txt "%s\n" [Ok (VStr (concat p))])). cbn. split; [|split; [left; reflexivity|exact Logic.I]]. eexists. split; [reflexivity|]. cbn [takes textual].
      apply scalars_writable. exact (rmap_scalar 2 l p Hp).
  - split; [intros (s & E & _); discriminate|]. intros (v' & Ev & l' & El' & F). congruence.
Qed.
Lemma Forall_insert : forall A (P : A -> Prop) a b x, Forall P (a ++ x :: b) <-> Forall P (a ++ b) /\ P x.
Proof. intros A P a b x. rewrite !Forall_app, Forall_cons_iff. tauto. Qed.
Theorem C72_2400 : forall c m fd file u d, dget d (KS "type") = Some (VInt 2400) -> dget d (KS "data") = None ->
  (w_exc (write_set c m fd file u d) = None <-> Forall (field_ok d) table2400).
Proof.
  intros c m fd file u d Ht Hd. rewrite (accepted _ _ _ _ _ _ _ Ht Hd). change (write_dispatch c m fd (VInt 2400) d) with (write2400 d). unfold write2400. cbn [wp_items].
  match goal with |- Forall ok_item (?a :: ?b :: ?x :: ?y :: ?z :: ?r) <-> _ => pose proof (Forall_insert _ ok_item [a; b; x; y] r z) as X end.
  cbn [app] in X. rewrite X. clear X. rewrite mask_ok. unfold table2400. rewrite app_assoc, Forall_app.
  assert (M : good Ints (ix (opt_fields d defaults2400) "status_mask") <-> Forall (field_ok d) (fields May Ints ["status_mask"])).
  { rewrite (good_may Ints d defaults2400 "status_mask" (VList (repeat (VInt 0) 32)) eq_refl).
    - cbn [fields map]. rewrite Forall_cons_iff. split; [intro; split; [assumption|constructor]|tauto].
    - eexists. split; [reflexivity|]. apply Forall_forall. intros x Hx. apply repeat_spec in Hx. subst. exact Logic.I. }
  rewrite M. apply and_iff_compat_r. clear M.
  scalar_items d [("model_uid", Int); ("entity_type", Int); ("entity_subtype", Int); ("version_number", Int); ("entity_name", Text); ("part_number", Text); ("status_mask", Ints);
     ("date", Text); ("time", Text); ("idm_version_id", Int); ("idm_item_id", Int); ("primary_parent_uid", Int); ("optimization_switches", Int)]
    [HDR 2400; ("%12i%6i%6i%12i\n", map SField ["model_uid"; "entity_type"; "entity_subtype"; "version_number"]); ("%-80s\n", [SField "entity_name"]); ("%-80s\n", [SField "part_number"]);
     ("%-10s%-10s%12i%12i%12i\n", map SField ["date"; "time"; "idm_version_id"; "idm_item_id"; "primary_parent_uid"]); ("%12i\n", [SField "optimization_switches"]); END].
  unfold defaults2400, defaults_ok. repeat (apply Forall2_cons; [split; [reflexivity|cbn [snd takes textual]; first [exact Logic.I|exact (Forall_nil _)|idtac]]|]); [|constructor].
  eexists. split; [reflexivity|]. apply Forall_forall. intros x Hx. apply repeat_spec in Hx. subst. exact Logic.I.
Qed.
Print Assumptions C72_2400.

(* ------------------------------------------------------------------ *)
(** ** Nodes and coordinate systems *)

Lemma not_ok : forall e, ~ ok_item (WTxt (Err e)).
Proof. intros e (s & E & _). discriminate. Qed.
Lemma not_ok1 : forall e l, ~ Forall ok_item (WTxt (Err e) :: l).
Proof. intros e l H. inversion H. eapply not_ok. eassumption. Qed.
(** The number of entries of the field that counts them. *)
Definition counted (d : dict) (k : string) (n : nat) : Prop := exists v l, dget d (KS k) = Some v /\ entries v = Some l /\ length l = n.
Lemma counted_len : forall d k n, counted d k n <-> (do v <- ix d k ;; py_len v) = Ok n.
Proof.
  intros d k n. unfold counted, ix. destruct (dget d (KS k)) as [v|]; cbn [of_option rbind].
  - unfold py_len. rewrite to_seq_entries. destruct (entries v) as [l|] eqn:E; cbn [rbind].
    + split; [intros (v' & l' & Ev & El & L); congruence|]. intro H. injection H as <-. eauto.
    + split; [intros (v' & l' & Ev & El & L); congruence|discriminate].
  - split; [intros (v' & l' & Ev & El & L); discriminate|discriminate].
Qed.
Lemma first_In : forall A n (l : list A) x, In x (firstn n l) -> In x l.
Proof. intros A n l x H. rewrite <- (firstn_skipn n l). apply in_or_app. left. exact H. Qed.
Lemma repeat_column : forall k x n v, entries v = Some (repeat x n) -> takes k x -> column_in k n v.
Proof.
  intros k x n v E H. exists (repeat x n). split; [exact E|]. rewrite repeat_length. split; [lia|]. apply Forall_forall. intros y Hy. apply first_In, repeat_spec in Hy. subst. exact H.
Qed.

Lemma map_flat : forall A B (f : A -> B) l, map f l = flat_map (fun x => [f x]) l.
Proof. intros A B f. induction l as [|a l IH]; [reflexivity|]. cbn [map flat_map app]. rewrite IH. reflexivity. Qed.
Definition table15 := fields Must Real ["node_nums"; "x"; "y"; "z"] ++ fields May Real ["def_cs"; "disp_cs"; "color"].
Lemma Forall_snoc : forall A (P : A -> Prop) l x, Forall P (l ++ [x]) <-> Forall P l /\ P x.
Proof. intros A P l x. rewrite Forall_app, Forall_cons_iff. split; [tauto|]. intros [? ?]. repeat split; auto. Qed.
Theorem C72_15 : forall c m fd file u d, dget d (KS "type") = Some (VInt 15) -> dget d (KS "data") = None ->
  (w_exc (write_set c m fd file u d) = None <-> exists n, counted d "node_nums" n /\ (n = 0 \/ Forall (column_ok d n) table15)).
Proof.
  intros c m fd file u d Ht Hd. rewrite (accepted _ _ _ _ _ _ _ Ht Hd). change (write_dispatch c m fd (VInt 15) d) with (write15 d). unfold write15.
  destruct (do v <- ix d "node_nums" ;; py_len v) as [n|e] eqn:En; cbn [wp_items].
  - rewrite Forall_cons_iff, Forall_snoc.
    assert (H1 : ok_item (WTxt (write_record [Tools.I (-1); Tools.I 15] [F0 6; F0 6] true))) by (eexists; split; [vm_compute; reflexivity|repeat constructor]).
    assert (H2 : ok_item (WTxt (write_record [Tools.I (-1)] [F0 6] false))) by (eexists; split; [vm_compute; reflexivity|repeat constructor]).
    set (d1 := opt_fields d _). 
    assert (X : Forall ok_item (map (rec15 d1) (map Z.of_nat (seq 0 n))) <-> n = 0 \/ Forall (column_ok d n) table15).
    { assert (E : map (rec15 d1) (map Z.of_nat (seq 0 n)) = flat_map (fun i => [rec15 d1 i]) (map Z.of_nat (seq 0 n))) by apply map_flat.
      rewrite E. apply (col_base (fun e i => [rec15 e i]) d [("def_cs", Real); ("disp_cs", Real); ("color", Real)]
        [(KS "def_cs", zeros n); (KS "disp_cs", zeros n); (KS "color", zeros n)] n (map (fun k => (Real, SCol k)) ["node_nums"; "def_cs"; "disp_cs"; "color"; "x"; "y"; "z"]) table15
        (fields Must Real ["node_nums"] ++ fields May Real ["def_cs"; "disp_cs"; "color"] ++ fields Must Real ["x"; "y"; "z"])).
      - intros e i. rewrite Forall_cons_iff. unfold rec15. rewrite record_ok by reflexivity. rewrite Forall_map. unfold holds. rewrite List.Forall_map. cbn [fst snd ev].
        split; [intros [H _]; exact H|intro H; split; [exact H|constructor]].
      - assert (Z : column_in Real n (zeros n)) by (eapply repeat_column; [reflexivity|reflexivity]). repeat constructor; exact Z.
      - reflexivity.
      - reflexivity. }
    rewrite X. split.
    + intros (_ & H & _). exists n. split; [apply counted_len; exact En|exact H].
    + intros (n' & Hn & H). apply counted_len in Hn. rewrite En in Hn. injection Hn as <-. auto.
  - split; [intro H; apply not_ok1 in H; destruct H|]. intros (n & Hn & _). apply counted_len in Hn. congruence.
Qed.
Print Assumptions C72_15.

Definition table18 := fields Must Label ["cs_num"; "ref_cs_num"] ++ fields May Label ["cs_type"; "color"; "method"] ++ fields May Text ["cs_name"]
  ++ flat_map (fun j => fields Must (Entry j) ["ref_o"; "x_point"; "xz_point"]) [0; 1; 2].
Theorem C72_18 : forall c m fd file u d, dget d (KS "type") = Some (VInt 18) -> dget d (KS "data") = None ->
  (w_exc (write_set c m fd file u d) = None <-> exists n, counted d "cs_num" n /\ (n = 0 \/ Forall (column_ok d n) table18)).
Proof.
  intros c m fd file u d Ht Hd. rewrite (accepted _ _ _ _ _ _ _ Ht Hd). change (write_dispatch c m fd (VInt 18) d) with (write18 d). unfold write18.
  destruct (do v <- ix d "cs_num" ;; py_len v) as [n|e] eqn:En; cbn [wp_items].
  - rewrite Forall_cons_iff, Forall_snoc, ok_hdr, ok_end.
    rewrite (col_plan rec18 d [("cs_type", Label); ("color", Label); ("method", Label); ("cs_name", Text)] _ n
      [("%10i%10i%10i%10i%10i\n", map SLab ["cs_num"; "cs_type"; "ref_cs_num"; "color"; "method"]); ("%-40s\n", [SCol "cs_name"]);
       ("%13.5e%13.5e%13.5e%13.5e%13.5e%13.5e\n", map (SEnt "ref_o") [0; 1; 2] ++ map (SEnt "x_point") [0; 1; 2]); ("%13.5e%13.5e%13.5e\n", map (SEnt "xz_point") [0; 1; 2])] table18).
    + split.
      * intros (_ & H & _). exists n. split; [apply counted_len; exact En|exact H].
      * intros (n' & Hn & H). apply counted_len in Hn. rewrite En in Hn. injection Hn as <-. auto.
    + reflexivity.
    + assert (Z : forall z, column_in Label n (VArr DInt (repeat (VInt z) n))) by (intro z; eapply repeat_column; [reflexivity|left; exact Logic.I]).
      assert (T : column_in Text n (VList (repeat (VStr []) n))) by (eapply repeat_column; [reflexivity|constructor]).
      repeat constructor; first [apply Z|exact T].
    + vm_compute. reflexivity.
  - split; [intro H; apply not_ok1 in H; destruct H|]. intros (n & Hn & _). apply counted_len in Hn. congruence.
Qed.
Print Assumptions C72_18.

Definition table2411 := fields Must Label ["node_nums"] ++ fields Must Int ["def_cs"; "disp_cs"; "color"] ++ fields Must Real ["x"; "y"; "z"].
Definition row2411 (e : dict) (i : Z) : list item := rec2411 e (i, match at_ (ix e "node_nums") i with Ok v => v | Err _ => VNone end).
Theorem C72_2411 : forall c m fd file u d, dget d (KS "type") = Some (VInt 2411) -> dget d (KS "data") = None ->
  (w_exc (write_set c m fd file u d) = None <-> exists n, counted d "node_nums" n /\ (n = 0 \/ Forall (column_ok d n) table2411)).
Proof.
  intros c m fd file u d Ht Hd. rewrite (accepted _ _ _ _ _ _ _ Ht Hd). change (write_dispatch c m fd (VInt 2411) d) with (write2411 d). unfold write2411. cbn [wp_items].
  rewrite Forall_cons_iff, ok_hdr. destruct (do v <- ix d "node_nums" ;; to_seq v) as [ns|e] eqn:En.
  - assert (Hc : counted d "node_nums" (length ns)).
    { apply counted_len. destruct (ix d "node_nums") as [v|]; [|discriminate]. cbn [rbind] in En |- *. unfold py_len. rewrite En. reflexivity. }
    rewrite Forall_snoc, ok_end.
    assert (E : flat_map (rec2411 d) (combine (map Z.of_nat (seq 0 (length ns))) ns) =
      flat_map (row2411 (opt_fields d [])) (map Z.of_nat (seq 0 (length ns)))).
    { cbn [opt_fields]. assert (G : forall k, nth_error ns k <> None -> at_ (ix d "node_nums") (Z.of_nat k) = of_option IndexError (nth_error ns k)).
      { intros k Hk. unfold at_. destruct (ix d "node_nums") as [v|]; [|discriminate]. cbn [rbind] in En |- *. rewrite En. cbn [rbind]. apply py_nth_nat. }
      assert (G2 : forall l a, (forall k, nth_error l k = nth_error ns (a + k)) -> 
        flat_map (rec2411 d) (combine (map Z.of_nat (seq a (length l))) l) = flat_map (fun i => rec2411 d (i, match at_ (ix d "node_nums") i with Ok v => v | Err _ => VNone end)) (map Z.of_nat (seq a (length l)))).
      { induction l as [|x l IH]; intros a Ha; [reflexivity|]. cbn [length seq map combine flat_map]. f_equal.
        - f_equal. f_equal. specialize (Ha 0). rewrite Nat.add_0_r in Ha. cbn [nth_error] in Ha. rewrite G by congruence. rewrite <- Ha. reflexivity.
        - apply IH. intro k. specialize (Ha (S k)). cbn [nth_error] in Ha. rewrite Ha. f_equal. lia. }
      exact (G2 ns 0 (fun k => eq_refl)). }
    rewrite E. clear E.
    rewrite (col_base row2411 d [] [] (length ns) [(Int, SLab "node_nums"); (Int, SCol "def_cs"); (Int, SCol "disp_cs"); (Int, SCol "color"); (Real, SCol "x"); (Real, SCol "y"); (Real, SCol "z")]
      table2411 table2411).
    + split.
      * intros (_ & H & _). eauto.
      * intros (n' & Hn & H). apply counted_len in Hn. apply counted_len in Hc. rewrite Hc in Hn. injection Hn as <-. auto.
    + intros e i. unfold row2411, rec2411. cbn [fst snd].
      assert (L : lines_atoms [("%10i%10i%10i%10i\n", [SLab "node_nums"; SCol "def_cs"; SCol "disp_cs"; SCol "color"]); ("%25.16e%25.16e%25.16e\n", map SCol ["x"; "y"; "z"])]
        = Some [(Int, SLab "node_nums"); (Int, SCol "def_cs"); (Int, SCol "disp_cs"); (Int, SCol "color"); (Real, SCol "x"); (Real, SCol "y"); (Real, SCol "z")]) by reflexivity.
      rewrite <- (lines_iff e i _ _ L). clear L. cbn [map]. unfold line. cbn [fst snd map ev].
      destruct (at_ (ix e "node_nums") (Z.of_nat i)) as [v|ex] eqn:Ea; [reflexivity|].
      split; intro H; inversion H as [|x y H1 H2]; exfalso; apply ok_txt in H1; destruct H1 as [(w & Hw & _) _]; discriminate Hw.
    + constructor.
    + reflexivity.
    + vm_compute. reflexivity.
  - split; [intros [_ H]; apply not_ok1 in H; destruct H|]. intros (n & Hn & _). apply counted_len in Hn. destruct (ix d "node_nums") as [v|]; [|discriminate].
    cbn [rbind] in *. unfold py_len in Hn. rewrite En in Hn. discriminate.
Qed.
Print Assumptions C72_2411.

(** A column with exactly [n] entries; one with a default may be missing if [n = 1]. *)
Definition exact_ok (d : dict) (n : nat) (f : string * kind * need) : Prop :=
  match dget d (KS (fst (fst f))) with
  | Some v => exists l, entries v = Some l /\ length l = n /\ Forall (takes (snd (fst f))) l
  | None => snd f = May /\ n = 1
  end.
Definition table2420 := fields Must Int ["CS_sys_labels"] ++ fields May Int ["CS_types"; "CS_colors"] ++ fields Must Text ["CS_names"] ++ fields Must Matrix ["CS_matrices"].
Lemma counted_fun : forall d k n n', counted d k n -> counted d k n' -> n = n'.
Proof. intros d k n n' H H'. apply counted_len in H. apply counted_len in H'. congruence. Qed.
Lemma rmap_len : forall n vs ls, rmap py_len vs = Ok ls -> (forallb (Nat.eqb n) ls = true <-> Forall (fun v => py_len v = Ok n) vs).
Proof.
  intros n. unfold rmap. induction vs as [|v vs IH]; intros ls H; cbn [map rseq] in H; [injection H as <-; split; [constructor|reflexivity]|].
  destruct (py_len v) as [m|] eqn:E; [|discriminate]. cbn [rbind] in H. destruct (rseq _) as [q|]; [|discriminate]. injection H as <-. cbn [forallb].
  rewrite andb_true_iff, Nat.eqb_eq, Forall_cons_iff, (IH q eq_refl), E. split; intros [H1 H2]; (split; [congruence|exact H2]).
Qed.
Lemma check2420_iff : forall e n, check2420 e = Ok n <-> Forall (fun k => counted e k n) ["CS_sys_labels"; "CS_types"; "CS_colors"; "CS_names"; "CS_matrices"].
Proof.
  intros e n. rewrite Forall_cons_iff. unfold check2420. split.
  - intro H. destruct (ix e "CS_sys_labels") as [lab|] eqn:El; [|discriminate]. cbn [rbind] in H. destruct (py_len lab) as [m|] eqn:Em; [|discriminate]. cbn [rbind] in H.
    destruct (rseq _) as [vs|] eqn:Ev; [|discriminate]. cbn [rbind] in H. destruct (rmap py_len vs) as [ls|] eqn:Els; [|discriminate]. cbn [rbind] in H.
    destruct (forallb (Nat.eqb m) ls) eqn:Ef; [|discriminate]. injection H as <-. split; [apply counted_len; rewrite El; exact Em|].
    apply (rmap_len m vs ls Els) in Ef. clear El Em Els ls lab. revert vs Ev Ef.
    generalize ["CS_types"; "CS_colors"; "CS_names"; "CS_matrices"]. induction l as [|k l IH]; intros vs Ev Ef; [constructor|]. cbn [map rseq] in Ev.
    destruct (ix e k) as [v|] eqn:Ek; [|discriminate]. cbn [rbind] in Ev. destruct (rseq (map (ix e) l)) as [q|]; [|discriminate]. injection Ev as <-. inversion Ef; subst.
    constructor; [apply counted_len; rewrite Ek; assumption|apply (IH q eq_refl); assumption].
  - intros [H1 H2]. apply counted_len in H1. destruct (ix e "CS_sys_labels") as [lab|] eqn:El; [|discriminate]. cbn [rbind] in *. rewrite H1. cbn [rbind].
    assert (X : exists vs, rseq (map (ix e) ["CS_types"; "CS_colors"; "CS_names"; "CS_matrices"]) = Ok vs /\ Forall (fun v => py_len v = Ok n) vs).
    { revert H2. generalize ["CS_types"; "CS_colors"; "CS_names"; "CS_matrices"]. induction 1 as [|k l Hk _ (vs & IH1 & IH2)]; [exists []; split; [reflexivity|constructor]|].
      apply counted_len in Hk. cbn [map rseq]. destruct (ix e k) as [v|] eqn:Ek; [|discriminate]. cbn [rbind] in *. rewrite IH1. cbn [rbind]. eexists. split; [reflexivity|]. constructor; assumption. }
    destruct X as (vs & E & F). rewrite E. cbn [rbind].
    assert (Y : exists ls, rmap py_len vs = Ok ls).
    { clear E. unfold rmap. induction F as [|v vs Hv _ [ls IH]]; [exists []; reflexivity|]. cbn [map rseq]. rewrite Hv. cbn [rbind]. rewrite IH. eexists. reflexivity. }
    destruct Y as [ls Hls]. rewrite Hls. cbn [rbind]. apply (rmap_len n vs ls Hls) in F. rewrite F. reflexivity.
Qed.
Definition exactly (d : dict) (n : nat) (f : string * kind) : Prop :=
  exists v l, dget d (KS (fst f)) = Some v /\ entries v = Some l /\ length l = n /\ Forall (takes (snd f)) l.
Lemma exactly_iff : forall d n nm k, exactly d n (nm, k) <-> counted d nm n /\ (n = 0 \/ column_ok d n (nm, k, Must)).
Proof.
  intros d n nm k. unfold exactly, counted, column_ok. cbn [fst snd]. split.
  - intros (v & l & Hv & El & L & F). split; [eauto|]. right. rewrite Hv. exists l. split; [exact El|]. split; [lia|]. rewrite firstn_all2 by lia. exact F.
  - intros ((v & l & Hv & El & L) & H). exists v, l. split; [exact Hv|]. split; [exact El|]. split; [exact L|]. destruct H as [->|H]; [destruct l; [constructor|discriminate]|].
    rewrite Hv in H. destruct H as (l' & El' & _ & F). rewrite El in El'. injection El' as <-. rewrite firstn_all2 in F by lia. exact F.
Qed.
Lemma mat_row_ok : forall v r, fits [FExp 25 16; FExp 25 16; FExp 25 16; FLit LF] (mat_row (Ok v) (Z.of_nat r)) <->
  exists dt rows row, v = VArr2 dt rows /\ nth_error rows r = Some row /\ length row = 3 /\ Forall real row.
Proof.
  intros v r. unfold mat_row. cbn [rbind].
  assert (N : forall e, ~ fits [FExp 25 16; FExp 25 16; FExp 25 16; FLit LF] [Err e]) by (intros e [_ []]).
  destruct v; try (split; [intro H; apply N in H; destruct H|intros (dt' & rows' & row' & E & _); discriminate E]; fail).
  rewrite py_nth_nat. destruct (nth_error rows r) as [row|] eqn:E; cbn [of_option].
  - split.
    + intro H. exists dt, rows, row. split; [reflexivity|]. split; [exact E|]. destruct row as [|a [|b [|c [|x y]]]]; cbn [map fits kind_of] in H; try tauto.
      rewrite !good_ok in H. cbn [takes] in H. split; [reflexivity|]. repeat constructor; tauto.
    + intros (dt' & rows' & row' & E1 & E2 & L & F). injection E1 as <- <-. rewrite E in E2. injection E2 as <-. destruct row as [|a [|b [|c [|x y]]]]; try discriminate L.
      cbn [map fits kind_of]. rewrite !good_ok. cbn [takes]. inversion F as [|? ? F1 F']; subst. inversion F' as [|? ? F2 F'']; subst. inversion F'' as [|? ? F3 _]; subst.
      repeat split; try assumption. left. reflexivity.
  - split; [intro H; apply N in H; destruct H|]. intros (dt' & rows' & row' & E1 & E2 & L & F). congruence.
Qed.
Lemma matrix_rows : forall v, takes Matrix v <-> Forall (fun r => exists dt rows row, v = VArr2 dt rows /\ nth_error rows r = Some row /\ length row = 3 /\ Forall real row) [0; 1; 2; 3].
Proof.
  intro v. cbn [takes]. split.
  - intros (dt & rows & -> & L & F). destruct rows as [|a [|b [|c [|e r]]]]; cbn [length] in L; try lia. cbn [firstn] in F.
    repeat match goal with H : Forall _ (_ :: _) |- _ => inversion H; clear H; subst end.
    repeat match goal with H : _ /\ _ |- _ => destruct H end.
    repeat (apply Forall_cons || apply Forall_nil); eexists dt, _, _; (split; [reflexivity|]; split; [reflexivity|]; split; assumption).
  - intro F. repeat match goal with H : Forall _ (_ :: _) |- _ => inversion H; clear H; subst end.
    match goal with H : exists dt rows row, v = VArr2 dt rows /\ nth_error rows 0 = _ /\ _ |- _ => destruct H as (dt & rows & r0 & -> & E0 & H0) end.
    exists dt, rows. split; [reflexivity|].
    repeat match goal with H : exists dt' rows' row, VArr2 dt rows = VArr2 dt' rows' /\ _ |- _ => destruct H as (? & ? & ? & Ee & ? & ? & ?); injection Ee as <- <- end.
    destruct H0. destruct rows as [|a [|b [|c [|e r]]]]; cbn [nth_error] in *; try discriminate. cbn [length firstn]. split; [lia|].
    repeat match goal with H : Some _ = Some _ |- _ => injection H as <- end. repeat constructor; assumption.
Qed.
Theorem C72_2420 : forall c m fd file u d, dget d (KS "type") = Some (VInt 2420) -> dget d (KS "data") = None ->
  (w_exc (write_set c m fd file u d) = None <-> Forall (field_ok d) (fields May Int ["Part_UID"] ++ fields May Text ["Part_Name"]) /\ exists n, Forall (exact_ok d n) table2420).
Proof.
  intros c m fd file u d Ht Hd. rewrite (accepted _ _ _ _ _ _ _ Ht Hd). change (write_dispatch c m fd (VInt 2420) d) with (write2420 d). unfold write2420. cbn [wp_items].
  set (defs := [(KS "Part_UID", VInt 1); (KS "Part_Name", VStr (lit "None")); (KS "CS_types", VList [VInt 0]); (KS "CS_colors", VList [VInt 8])]).
  match goal with |- Forall ok_item (?a :: ?b :: ?x :: ?r) <-> _ => change (a :: b :: x :: r) with ([a; b; x] ++ r) end. rewrite Forall_app.
  assert (X1 : Forall ok_item [hdr_lines 2420; txt "%10i\n" [ix (opt_fields d defs) "Part_UID"]; txt "%-80s\n" [ix (opt_fields d defs) "Part_Name"]]
    <-> Forall (field_ok d) (fields May Int ["Part_UID"] ++ fields May Text ["Part_Name"])).
  { scalar_items d [("Part_UID", Int); ("Part_Name", Text); ("CS_types", Ints); ("CS_colors", Ints)] [HDR 2420; ("%10i\n", [SField "Part_UID"]); ("%-80s\n", [SField "Part_Name"])].
    subst defs. unfold defaults_ok. repeat (apply Forall2_cons; [split; [reflexivity|cbn [snd takes textual]; first [exact Logic.I|apply lits_writable|idtac]]|]); [| |constructor];
      (eexists; split; [reflexivity|]; repeat constructor). }
  rewrite X1. clear X1. apply and_iff_compat_l. set (d1 := opt_fields d defs).
  assert (X2 : forall n, Forall (exact_ok d n) table2420 <-> Forall (exactly d1 n) [("CS_sys_labels", Int); ("CS_types", Int); ("CS_colors", Int); ("CS_names", Text); ("CS_matrices", Matrix)]).
  { intro n. unfold table2420, fields. cbn [map app].
    assert (Y : forall nm k, dget defs (KS nm) = None -> (exact_ok d n (nm, k, Must) <-> exactly d1 n (nm, k))).
    { intros nm k H. unfold exact_ok, exactly. cbn [fst snd]. subst d1. rewrite opt_fields_get, H. destruct (dget d (KS nm)) as [v|].
      - split; [intros (l & A & B & C); eauto 6|]. intros (v' & l & Ev & A & B & C). injection Ev as <-. eauto.
      - split; [intros [A _]; discriminate|]. intros (v' & l & Ev & _). discriminate. }
    assert (Z : forall nm x, dget defs (KS nm) = Some (VList [VInt x]) -> (exact_ok d n (nm, Int, May) <-> exactly d1 n (nm, Int))).
    { intros nm x H. unfold exact_ok, exactly. cbn [fst snd]. subst d1. rewrite opt_fields_get, H. destruct (dget d (KS nm)) as [v|].
      - split; [intros (l & A & B & C); eauto 6|]. intros (v' & l & Ev & A & B & C). injection Ev as <-. eauto.
      - split; [intros [_ ->]; eexists _, _; split; [reflexivity|]; split; [reflexivity|]; split; [reflexivity|repeat constructor]|].
        intros (v' & l & Ev & El & L & _). injection Ev as <-. cbn [entries] in El. injection El as <-. split; [reflexivity|]. symmetry. exact L. }
    rewrite !Forall_cons_iff. rewrite (Y "CS_sys_labels" Int eq_refl), (Y "CS_names" Text eq_refl), (Y "CS_matrices" Matrix eq_refl), (Z "CS_types" 0%Z eq_refl), (Z "CS_colors" 8%Z eq_refl).
    assert (W : Forall (exact_ok d n) [] <-> Forall (exactly d1 n) []) by (split; constructor). rewrite W. reflexivity. }
  assert (X3 : forall n, Forall ok_item (flat_map (rec2420 d1) (map Z.of_nat (seq 0 n))) <-> n = 0 \/ Forall (column_ok d1 n) (fields Must Int ["CS_sys_labels"; "CS_types"; "CS_colors"] ++ fields Must Text ["CS_names"] ++ fields Must Matrix ["CS_matrices"])).
  { intro n. apply (col_base rec2420 d1 [] [] n [(Int, SCol "CS_sys_labels"); (Int, SCol "CS_types"); (Int, SCol "CS_colors"); (Text, SCol "CS_names"); (Matrix, SCol "CS_matrices")]
      _ (fields Must Int ["CS_sys_labels"; "CS_types"; "CS_colors"] ++ fields Must Text ["CS_names"] ++ fields Must Matrix ["CS_matrices"])); [|constructor|reflexivity|reflexivity].
    intros e i. unfold rec2420. rewrite !Forall_cons_iff, !ok_txt. 
    change (parse_fmt SNorm "%10i%10i%10i\n") with [FInt 10; FInt 10; FInt 10; FLit LF]. change (parse_fmt SNorm "%s\n") with [FStr false 0; FLit LF].
    change (parse_fmt SNorm "%25.16e%25.16e%25.16e\n") with [FExp 25 16; FExp 25 16; FExp 25 16; FLit LF]. unfold holds. cbn [fst snd ev].
    assert (S : scalar LF) by (left; reflexivity).
    assert (M : fits [FExp 25 16; FExp 25 16; FExp 25 16; FLit LF] (mat_row (at_ (ix e "CS_matrices") (Z.of_nat i)) 0) /\
      fits [FExp 25 16; FExp 25 16; FExp 25 16; FLit LF] (mat_row (at_ (ix e "CS_matrices") (Z.of_nat i)) 1) /\
      fits [FExp 25 16; FExp 25 16; FExp 25 16; FLit LF] (mat_row (at_ (ix e "CS_matrices") (Z.of_nat i)) 2) /\
      fits [FExp 25 16; FExp 25 16; FExp 25 16; FLit LF] (mat_row (at_ (ix e "CS_matrices") (Z.of_nat i)) 3) <-> good Matrix (at_ (ix e "CS_matrices") (Z.of_nat i))).
    { destruct (at_ (ix e "CS_matrices") (Z.of_nat i)) as [v|ex].
      - rewrite good_ok, matrix_rows, !Forall_cons_iff. pose proof (mat_row_ok v 0) as M0. pose proof (mat_row_ok v 1) as M1. pose proof (mat_row_ok v 2) as M2. pose proof (mat_row_ok v 3) as M3.
        cbn [Z.of_nat Pos.of_succ_nat Pos.succ] in M0, M1, M2, M3. rewrite M0, M1, M2, M3.
        split; [intros (A0 & A1 & A2 & A3); repeat split; auto; constructor|intros (A0 & A1 & A2 & A3 & _); auto].
      - split; [intros [[(w & Hw & _) _] _]; discriminate Hw|intros (w & Hw & _); discriminate Hw]. }
    cbn [fits kind_of]. rewrite <- M. clear M.
    split.
    - intros ((A1 & A2 & A3 & _) & (A4 & _) & B1 & B2 & B3 & B4 & _). repeat split; try assumption. constructor.
    - intros (A1 & A2 & A3 & A4 & (B1 & B2 & B3 & B4) & _). repeat split; try assumption; constructor. }
  split.
  - destruct (check2420 d1) as [n|ex] eqn:Ec; [|intro H; apply not_ok1 in H; destruct H]. intro H. apply Forall_snoc in H as [H _]. apply X3 in H. apply check2420_iff in Ec.
    exists n. apply X2. repeat match goal with H : Forall (fun k => counted d1 k n) (_ :: _) |- _ => inversion H; clear H; subst end.
    assert (C : forall nm k, counted d1 nm n -> In (nm, k, Must) (fields Must Int ["CS_sys_labels"; "CS_types"; "CS_colors"] ++ fields Must Text ["CS_names"] ++ fields Must Matrix ["CS_matrices"]) -> exactly d1 n (nm, k)).
    { intros nm k Hc Hin. apply exactly_iff. split; [exact Hc|]. destruct H as [H|H]; [left; exact H|right]. rewrite Forall_forall in H. apply H. exact Hin. }
    repeat (apply Forall_cons || apply Forall_nil); apply C; try assumption; cbn; tauto.
  - intros [n H]. apply X2 in H. assert (Ec : check2420 d1 = Ok n).
    { apply check2420_iff. repeat match goal with H : Forall (exactly d1 n) (_ :: _) |- _ => inversion H; clear H; subst end.
      repeat match goal with H : exactly d1 n _ |- _ => apply exactly_iff in H as [H _] end. repeat constructor; assumption. }
    rewrite Ec. apply Forall_snoc. split; [|apply ok_end; exact Logic.I]. apply X3. destruct (Nat.eq_dec n 0) as [->|N]; [left; reflexivity|right].
    repeat match goal with H : Forall (exactly d1 n) (_ :: _) |- _ => inversion H; clear H; subst end.
    repeat match goal with H : exactly d1 n _ |- _ => apply exactly_iff in H as [_ [H|H]]; [contradiction|] end. repeat constructor; assumption.
Qed.
Print Assumptions C72_2420.
