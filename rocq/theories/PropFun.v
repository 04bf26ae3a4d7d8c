(** Functions at nodal degrees of freedom (58).  See PropNodes.v for the meaning
    of [round_trips], [reprN], [wfN], [readN]. *)
From Coq Require Import String List NArith ZArith Bool Lia.
Import ListNotations.
From Coq Require Import SpecFloat.
From Verif Require Import PyBase PyNum PyVal Utf8 Tools DsNodes DsHeaders Ds55 Ds58 Uff Facts FloatFacts DecFacts FloatText CplxFacts DictFacts Scan Container Append
  Utf8Facts Lines Stored Cells Rows RtHeads RtNodal RtFun RtFunSet Witness.
From Coq Require Import Lia.
Open Scope string_scope.
Open Scope list_scope.
Open Scope nat_scope.

(* ------------------------------------------------------------------ *)
(** C27: as text; real or complex, even or uneven, single or double, any number
    of points from two on.  Ordinates have 12 (double) or 6 (single) digits. *)
Theorem C27_round_trip_58 : forall c m fd ho d r, repr58 fd false d r -> wf58 r -> round_trips c m fd ho d (read58 false ho r).
Proof. intros. eapply text_set_round, set58; eassumption. Qed.
Print Assumptions C27_round_trip_58.
(** What [read58] holds for the points. *)
Theorem C27_points : forall r, length (q_ids r) = 5 ->
  dget (read58 false false r) (KS "x") = Some (VArr DFloat (map VFloat
    (if q_even r then map (fun i => f_add (rd 5 (q_min r)) (f_mul (float_of_Z (Z.of_nat i)) (rd 5 (q_inc r)))) (seq 0 (length (q_pts r)))
     else map (fun p => rd 5 (fst p)) (q_pts r)))) /\
  (q_cplx r = false -> dget (read58 false false r) (KS "data") = Some (VArr DFloat (map VFloat
    (map (fun p => rd (if q_dbl r then 11 else 5) (nan_to_num1 (fst (snd p)))) (q_pts r))))) /\
  (q_cplx r = true -> dget (read58 false false r) (KS "data") = Some (VArr DCplx (map (fun p =>
    let y f := rd (if q_dbl r then 11 else 5) (nan_to_num1 f) in
    VCplx (re_part (y (fst (snd p))) (y (snd (snd p)))) (im_part (y (snd (snd p))))) (q_pts r)))).
Proof.
  intros r Hi. unfold read58, base58, head_out. destruct (q_ids r) as [|s1 [|s2 [|s3 [|s4 [|s5 [|]]]]]]; try discriminate.
  split; [|split].
  - transitivity (Some (x_out (q_even r) (rd 5 (q_min r)) (rd 5 (q_inc r)) (map (rpt (q_dbl r)) (q_pts r)))); [reflexivity|].
    unfold x_out, arange_x, vfloats. rewrite !map_length, (map_map (rpt (q_dbl r)) fst). destruct (q_even r); reflexivity.
  - intro E. transitivity (Some (y_out (q_cplx r) (map (rpt (q_dbl r)) (q_pts r)))); [reflexivity|]. rewrite E. unfold y_out, vfloats. rewrite (map_map (rpt (q_dbl r))). reflexivity.
  - intro E. transitivity (Some (y_out (q_cplx r) (map (rpt (q_dbl r)) (q_pts r)))); [reflexivity|]. rewrite E. unfold y_out. rewrite (map_map (rpt (q_dbl r))). reflexivity.
Qed.
Print Assumptions C27_points.

(* ------------------------------------------------------------------ *)
(** C28: binary double precision sets that are added; the payload contains no
    delimiter.  Finite real ordinates and uneven abscissas are read bit for bit. *)
Theorem C28_round_trip_58b : forall c fd ho d r, repr58 fd true d r -> wf58 r -> q_dbl r = true -> (n_bytes58 r < 10 ^ 12)%Z -> no_delim (payload r) ->
  round_trips c Add fd ho d (read58 true ho r).
Proof. intros. eapply faithful_round_trips, stored58b; eassumption. Qed.
Print Assumptions C28_round_trip_58b.
Lemma finite_ntn : forall f, f_finite f = true -> nan_to_num1 f = f.
Proof. intros [| | |] H; try discriminate; reflexivity. Qed.
Theorem C28_exact : forall r, length (q_ids r) = 5 -> Forall (fun p => f_finite (fst (snd p)) = true /\ f_finite (snd (snd p)) = true) (q_pts r) ->
  (q_even r = false -> dget (read58 true false r) (KS "x") = Some (VArr DFloat (map VFloat (map fst (q_pts r))))) /\
  (q_cplx r = false -> dget (read58 true false r) (KS "data") = Some (VArr DFloat (map VFloat (map (fun p => fst (snd p)) (q_pts r))))) /\
  (q_cplx r = true -> dget (read58 true false r) (KS "data") = Some (VArr DCplx (map (fun p => VCplx (re_part (fst (snd p)) (snd (snd p))) (im_part (snd (snd p)))) (q_pts r)))).
Proof.
  intros r Hi Hf. assert (En : map npt (q_pts r) = q_pts r).
  { induction Hf as [|p l [H1 H2] _ IH]; [reflexivity|]. cbn [map]. rewrite IH. f_equal. unfold npt. rewrite (finite_ntn _ H1), (finite_ntn _ H2).
    destruct p as [x [a b]]; reflexivity. }
  unfold read58, base58, head_out. destruct (q_ids r) as [|s1 [|s2 [|s3 [|s4 [|s5 [|]]]]]]; try discriminate.
  split; [|split]; intro E.
  - transitivity (Some (x_out (q_even r) (rd 5 (q_min r)) (rd 5 (q_inc r)) (map npt (q_pts r)))); [reflexivity|]. rewrite E, En. reflexivity.
  - transitivity (Some (y_out (q_cplx r) (map npt (q_pts r)))); [reflexivity|]. rewrite E, En. reflexivity.
  - transitivity (Some (y_out (q_cplx r) (map npt (q_pts r)))); [reflexivity|]. rewrite E, En. reflexivity.
Qed.
Print Assumptions C28_exact.

(* ------------------------------------------------------------------ *)
(** C29: in overwrite mode every binary set is lost: the file consists of the
    closing delimiter only, and nothing can be read from it. *)
Theorem C29_overwrite_lost : forall c fd d r file u, repr58 fd true d r -> wf58 r -> (n_bytes58 r < 10 ^ 12)%Z ->
  exists u', write_sets c file u [d] (lit "overwrite") fd = (Some (lit "    -1" ++ [10%N]), u', None) /\
    (n_sets u = 0 -> read_sets (Some (lit "    -1" ++ [10%N])) u' (SelOne 0) false = Err (PyException "Error when reading data-set(s).")).
Proof.
  intros c fd d r file u R W Hnb. destruct (write58_items c Overwrite fd true d r R W) as (T & Es & HT).
  destruct (bin_ok _ (conj (n_bytes_pos r) Hnb)) as (_ & Hb & Hty).
  assert (Hok : Forall okline (l0_58 true r :: hd58 r)) by (constructor; [exact Hb|apply hd58_ok; assumption]).
  destruct (text_block_ok 58 (l0_58 true r) (hd58 r) Hok Hty) as (hb & He & _).
  assert (He' : utf8_enc (unlines (TAG :: l0_58 true r :: hd58 r)) = Some (TLINE ++ hb)).
  { change (unlines (TAG :: l0_58 true r :: hd58 r)) with (TLINE ++ unlines (l0_58 true r :: hd58 r)). rewrite utf8_enc_app, TLINE_enc, He. reflexivity. }
  assert (Hrun : run_items [] (set_items c Overwrite fd d) = (TLINE, None)).
  { rewrite Es. rewrite (run_writes _ _ _ _ _ HT He'). unfold tail58. cbn [app run_items]. rewrite <- app_assoc. rewrite run_raw. reflexivity. }
  destruct R as (Rty & Rest).
  unfold write_sets. change (parse_mode (lit "overwrite")) with (@Ok wmode Overwrite). cbn [write_list].
  unfold write_set. rewrite Rty. unfold set_items in Hrun. rewrite Rty in Hrun.
  destruct (match dget d (KS "data") with Some v => _ | None => _ end) as [d1|e] eqn:E1; [|discriminate].
  destruct file as [b0|]; rewrite Hrun.
  - eexists. split; [reflexivity|]. destruct u as [bi rf n st sf]. cbn [n_sets]. intros ->. vm_compute. reflexivity.
  - eexists. split; [reflexivity|]. destruct u as [bi rf n st sf]. cbn [n_sets]. intros ->. vm_compute. reflexivity.
Qed.
Print Assumptions C29_overwrite_lost.

(* ------------------------------------------------------------------ *)
(** Concrete sets. *)
Definition h58 : dict := Eval vm_compute in
  [(KS "type", VInt 58); (KS "func_type", VInt 4); (KS "rsp_node", VInt 1234567890); (KS "rsp_dir", VInt (-3)); (KS "ref_node", VInt 2); (KS "ref_dir", VInt 1);
   (KS "id1", VStr (lit "a transfer function")); (KS "ref_ent_name", VStr (lit "shaker")); (KS "z_axis_value", VInt 3);
   (KS "orddenom_spec_data_type", VInt 13); (KS "abscissa_axis_lab", VStr (lit "Frequency")); (KS "abscissa_axis_units_lab", VStr (lit "Hz"))].
Definition ax58 (spec : Z) (lab units : string) : axis :=
  {| x_spec := spec; x_len := 0; x_force := 0; x_temp := 0; x_lab := lit lab; x_units := lit units |}.
Definition r58 (cplx dbl even : bool) (mn inc : float) (pts : list pt) : func58 :=
  {| q_ids := [lit "a transfer function"; lit "NONE"; lit "NONE"; lit "NONE"; lit "NONE"]; q_type := 4; q_id := 0; q_ver := 0; q_lc := 0;
     q_rsp := lit "NONE"; q_rspn := 1234567890; q_rspd := -3; q_ref := lit "shaker"; q_refn := 2; q_refd := 1; q_cplx := cplx; q_dbl := dbl; q_even := even;
     q_min := mn; q_inc := inc; q_zval := fl "3"; q_abs := ax58 0 "Frequency" "Hz"; q_ord := ax58 0 "NONE" "NONE"; q_den := ax58 13 "NONE" "NONE";
     q_zax := ax58 0 "NONE" "NONE"; q_pts := pts |}.
(** Real, evenly spaced (an integer abscissa), single precision, text; with NaN and infinity. *)
Definition d58_even : dict := Eval vm_compute in
  h58 ++ [(KS "abscissa_spacing", VInt 1); (KS "ord_data_type", VInt 2); (KS "x", VArr DInt (map VInt [5; 7; 9]%Z));
          (KS "data", VList [fv "1.23456789"; fv "nan"; fv "-inf"])].
Definition r58_even : func58 := Eval vm_compute in
  r58 false false true (float_of_Z 5) (float_of_Z 2) (combine (map float_of_Z [5; 7; 9]%Z) (map (fun f => (f, f_zero)) [fl "1.23456789"; fl "nan"; fl "-inf"])).
(** Complex, unevenly spaced, double precision, text. *)
Definition cv58 (a b : string) : pyval := VCplx (fl a) (fl b).
Definition d58_uneven : dict := Eval vm_compute in
  h58 ++ [(KS "abscissa_spacing", VInt 0); (KS "x", VArr DFloat [fv "0.1"; fv "0.25"; fv "1e-7"]); (KS "data", VArr DCplx [cv58 "1" "2"; cv58 "-0.1" "1e300"; cv58 "3" "inf"])].
Definition r58_uneven : func58 := Eval vm_compute in
  r58 true true false f_zero f_zero [(fl "0.1", (fl "1", fl "2")); (fl "0.25", (fl "-0.1", fl "1e300")); (fl "1e-7", (fl "3", fl "inf"))].
(** The same in binary form. *)
Definition d58_bin : dict := d58_uneven ++ [(KS "binary", VInt 1)].

Ltac wit58 := 
  first [ match goal with |- has as_truth _ _ _ => eexists; split; [vm_compute; reflexivity|]; vm_compute; reflexivity end
        | match goal with |- has_or as_truth _ _ _ _ => first [left; solve [eexists; split; [vm_compute; reflexivity|]; vm_compute; reflexivity]|right; split; vm_compute; reflexivity] end
        | match goal with |- has is_num _ _ _ => eexists; split; [vm_compute; reflexivity|]; split; [vm_compute; reflexivity|intro; reflexivity] end
        | match goal with |- Forall2 _ id_keys _ => repeat (constructor; [wit1|]); constructor end
        | match goal with |- repr_axis _ _ _ => repeat (split; [wit1|]); wit1 end
        | match goal with |- (if _ then _ else _) => cbv iota end
        | wit1 ].
Ltac wf58_tac := unfold wf58, wf_axis, okfin, okf, ax58; cbn [q_ids q_type q_id q_ver q_lc q_rsp q_rspn q_rspd q_ref q_refn q_refd q_min q_inc q_zval q_abs q_ord q_den q_zax q_pts x_spec x_len x_force x_temp x_lab x_units];
  wit; try solve [cbn; intuition lia]; try solve [cbn; lia]; try (apply plain_ascii; vm_compute; reflexivity).
Example C27_example_even : repr58 false false d58_even r58_even /\ wf58 r58_even.
Proof.
  split; [|wf58_tac].
  unfold repr58. repeat (split; [solve [repeat wit58]|]). split.
  - eexists. split; [vm_compute; reflexivity|]. right. exists 5%Z, 7%Z, [9%Z]. split; [reflexivity|]. split; [vm_compute; reflexivity|]. split; [repeat constructor|].
    split; vm_compute; reflexivity.
  - eexists. split; [vm_compute; reflexivity|]. split; [exact Logic.I|]. eexists DFloat, _. split; [vm_compute; reflexivity|]. split; [split; discriminate|].
    cbv iota. repeat constructor.
Qed.
Example C27_example_uneven : repr58 true false d58_uneven r58_uneven /\ wf58 r58_uneven.
Proof.
  split; [|wf58_tac].
  unfold repr58. repeat (split; [solve [repeat wit58]|]). split.
  - eexists. split; [vm_compute; reflexivity|]. left. eexists _, _, _. split; [reflexivity|]. split; [vm_compute; reflexivity|]. repeat (split; [vm_compute; reflexivity|]).
    vm_compute; reflexivity.
  - eexists. split; [vm_compute; reflexivity|]. split; [exact Logic.I|]. eexists DCplx, _. split; [vm_compute; reflexivity|]. split; [split; reflexivity|].
    cbv iota. repeat (constructor; [split; vm_compute; reflexivity|]). constructor.
Qed.
Lemma no_delim_tags : forall b, tags (b ++ TLINE) = [length b] -> no_delim b.
Proof. intros b H i Hi Hd. apply tags_In in Hd. rewrite H in Hd. destruct Hd as [E|[]]. lia. Qed.
Example C28_example : repr58 true true d58_bin r58_uneven /\ wf58 r58_uneven /\ q_dbl r58_uneven = true /\ (n_bytes58 r58_uneven < 10 ^ 12)%Z /\ no_delim (payload r58_uneven).
Proof.
  split; [|split; [apply C27_example_uneven|split; [reflexivity|split; [vm_compute; reflexivity|apply no_delim_tags; vm_compute; reflexivity]]]].
  unfold repr58. repeat (split; [solve [repeat wit58]|]). split.
  - eexists. split; [vm_compute; reflexivity|]. left. eexists _, _, _. split; [reflexivity|]. split; [vm_compute; reflexivity|]. repeat (split; [vm_compute; reflexivity|]).
    vm_compute; reflexivity.
  - eexists. split; [vm_compute; reflexivity|]. split; [exact Logic.I|]. eexists DCplx, _. split; [vm_compute; reflexivity|]. split; [split; reflexivity|].
    cbv iota. repeat (constructor; [split; vm_compute; reflexivity|]). constructor.
Qed.
Theorem C29_refuted : exists d r, repr58 true true d r /\ wf58 r /\ exists u,
  write_sets noclock None uff0 [d] (lit "overwrite") true = (Some (lit "    -1" ++ [10%N]), u, None) /\
  read_sets (Some (lit "    -1" ++ [10%N])) u (SelOne 0) false = Err (PyException "Error when reading data-set(s).").
Proof.
  exists d58_bin, r58_uneven. destruct C28_example as (R & W & _ & Hn & _). split; [exact R|]. split; [exact W|].
  destruct (C29_overwrite_lost noclock true d58_bin r58_uneven None uff0 R W Hn) as (u & E & H). exists u. auto.
Qed.
Print Assumptions C29_refuted.

(* ------------------------------------------------------------------ *)
(** C30: single precision binary sets: the numbers are stored with eight bytes
    and read with four, so twice as many points come back. *)
Definition d58_single : dict := Eval vm_compute in
  h58 ++ [(KS "binary", VInt 1); (KS "abscissa_spacing", VInt 1); (KS "ord_data_type", VInt 2); (KS "x", VArr DFloat [fv "0"; fv "1"; fv "2"]);
          (KS "data", VArr DFloat [fv "1.5"; fv "2.5"; fv "3.5"])].
Theorem C30_refuted : exists f u out l, write_sets noclock None uff0 [d58_single] (lit "add") false = (Some f, u, None) /\
  read_sets (Some f) u (SelOne 0) false = Ok (u, One out) /\ dget out (KS "data") = Some (VArr DFloat l) /\ length l = 6 /\ hd_error l = Some (VFloat f_zero).
Proof.
  eexists _, _, _, _. split; [vm_compute; reflexivity|]. split; [vm_compute; reflexivity|]. split; [vm_compute; reflexivity|]. split; vm_compute; reflexivity.
Qed.
Print Assumptions C30_refuted.

(* ------------------------------------------------------------------ *)
(** C31: the header entries do not depend on [header_only], for every block that
    can be read; with [header_only] only the first 13 lines matter. *)
Definition header_of (d h : dict) : Prop :=
  dget h (KS "x") = Some VNone /\ dget h (KS "data") = Some VNone /\ forall k, k <> KS "x" -> k <> KS "data" -> dget h k = dget d k.
Lemma dget_update2 : forall d a b k, k <> KS "x" -> k <> KS "data" -> dget (dupdate d [(KS "x", a); (KS "data", b)]) k = dget d k.
Proof.
  intros d a b k H1 H2. unfold dupdate. cbn [fold_left fst snd]. rewrite !dget_dput.
  destruct (key_eqb_spec k (KS "data")); [congruence|]. destruct (key_eqb_spec k (KS "x")); [congruence|]. reflexivity.
Qed.
Lemma update2_header : forall d e, (forall k, k <> KS "x" -> k <> KS "data" -> dget e k = dget d k) ->
  header_of e (dupdate d [(KS "x", VNone); (KS "data", VNone)]).
Proof.
  intros d e H. split; [|split].
  - unfold dupdate. cbn [fold_left fst snd]. rewrite !dget_dput. reflexivity.
  - unfold dupdate. cbn [fold_left fst snd]. rewrite !dget_dput. reflexivity.
  - intros k H1 H2. rewrite dget_update2 by assumption. symmetry. apply H; assumption.
Qed.
Lemma assemble58_keys : forall d l e, assemble58 d l = Ok e -> forall k, k <> KS "x" -> k <> KS "data" -> dget e k = dget d k.
Proof.
  intros d l e H k H1 H2. unfold assemble58 in H. destruct (ix d "ord_data_type") as [odt|]; [|discriminate]. cbn [rbind] in H.
  destruct (ix d "abscissa_spacing") as [sp|]; [|discriminate]. cbn [rbind] in H.
  assert (Hu : forall a b, Ok (dupdate d [(KS "x", a); (KS "data", b)]) = Ok e -> dget e k = dget d k)
    by (intros a b E; injection E as <-; apply dget_update2; assumption).
  destruct (eq_one_of odt [2; 4]%Z); [|destruct (eq_one_of odt [5; 6]%Z); [|injection H as <-; reflexivity]]; destruct (py_eqZ sp 0);
    repeat match type of H with rbind ?r _ = _ => destruct r; cbn [rbind] in H; [|discriminate H] end; eapply Hu; exact H.
Qed.
Lemma try_any_ok : forall A (r : result A) e a, try_any r e = Ok a -> r = Ok a.
Proof. intros A [b|[]] e a H; try discriminate; exact H. Qed.
Theorem C31_header_only : forall block d, extract58 block false = Ok d -> exists h, extract58 block true = Ok h /\ header_of d h.
Proof.
  intros block d H. unfold extract58 in *. cbv zeta in *. apply try_any_ok in H.
  match type of H with context [rbind (ln ?l 1) _] => destruct (ln l 1) as [h1|]; cbn [rbind] in *; [|discriminate] end.
  set (bin := match nth_error h1 6 with Some c => (lower_char c =? 98)%N | None => false end) in *.
  match type of H with context [rbind ?r _] => destruct r as [d1|]; [|discriminate] end. cbn [rbind] in *.
  match type of H with context [rbind ?r _] => destruct r as [d2|]; [|discriminate] end. cbn [rbind] in *.
  eexists. split; [cbn [try_any]; reflexivity|]. apply update2_header.
  match type of H with context [rbind ?r _] => destruct r as [vals|]; [|discriminate] end. cbn [rbind] in H.
  eapply assemble58_keys; exact H.
Qed.
Print Assumptions C31_header_only.
Theorem C31_first_lines : forall b1 b2, firstn 13 (splitlines_bytes true b1) = firstn 13 (splitlines_bytes true b2) -> extract58 b1 true = extract58 b2 true.
Proof. intros b1 b2 H. unfold extract58. rewrite H. reflexivity. Qed.
Print Assumptions C31_first_lines.
(** For whole files: other sets are not affected by [header_only]. *)
Lemma read_set_header : forall f u n u' d, read_set f u n false = Ok (u', d) -> exists h, read_set f u n true = Ok (u', h) /\ (h = d \/ header_of d h).
Proof.
  intros [data|] u n u' d H; [|discriminate]. unfold read_set in *. destruct (sync (Some data) u) as [u1|]; [|discriminate]. cbn [rbind] in *.
  destruct ((Z.of_nat (n_sets u1) - 1 <? n)%Z || (n <? 0)%Z); [discriminate|].
  destruct (nth_error (block_ind u1) (Z.to_nat n)) as [p|]; [|discriminate]. cbn [of_option rbind] in *.
  destruct (nth_error (set_types u1) (Z.to_nat n)) as [ty|]; [|discriminate]. cbn [of_option rbind] in *.
  destruct (ty =? 58)%Z eqn:E.
  - apply Z.eqb_eq in E. subst ty. change (extract_set 58 (extract_block data p)) with (extract58 (extract_block data p)) in *.
    destruct (extract58 (extract_block data p) false) as [d'|] eqn:E; [|discriminate]. injection H as <- <-.
    destruct (C31_header_only _ _ E) as (h & -> & Hh). exists h. auto.
  - assert (Es : extract_set ty (extract_block data p) true = extract_set ty (extract_block data p) false) by (unfold extract_set; rewrite E; reflexivity).
    rewrite Es. destruct (extract_set ty (extract_block data p) false) as [d'|]; [|discriminate]. injection H as <- <-. exists d'. auto.
Qed.
Theorem C31_read_sets : forall f u s u' res, read_sets f u s false = Ok (u', res) ->
  exists ds hs, res = shape_result ds /\ read_sets f u s true = Ok (u', shape_result hs) /\ Forall2 (fun d h => h = d \/ header_of d h) ds hs.
Proof.
  assert (A : forall f l u u' ds, read_all f u l false = Ok (u', ds) -> exists hs, read_all f u l true = Ok (u', hs) /\ Forall2 (fun d h => h = d \/ header_of d h) ds hs).
  { intros f l. induction l as [|n l IH]; intros u u' ds H.
    - injection H as <- <-. eexists. split; [reflexivity|]. constructor.
    - cbn [read_all] in *. destruct (read_set f u n false) as [[u1 d]|] eqn:E; [|discriminate]. cbn [rbind] in H.
      destruct (read_all f u1 l false) as [[u2 ds']|] eqn:E2; [|discriminate]. injection H as <- <-.
      destruct (read_set_header _ _ _ _ _ E) as (h & -> & Hh). cbn [rbind]. destruct (IH _ _ _ E2) as (hs & -> & Hs). cbn [rbind]. eexists. split; [reflexivity|]. constructor; assumption. }
  intros f u s u' res H. unfold read_sets in *. destruct f as [data|]; [|discriminate]. destruct (sync (Some data) u) as [u1|]; [|discriminate]. cbn [rbind] in *.
  
  match type of H with rbind (try_any ?r ?e) _ = _ => destruct (try_any r e) as [[u2 ds]|] eqn:E; cbn [rbind] in H; [apply try_any_ok in E|discriminate] end. injection H as <- <-.
  destruct (A _ _ _ _ _ E) as (hs & E' & Hs). exists ds, hs. split; [reflexivity|]. split; [|assumption]. rewrite E'. reflexivity.
Qed.
Print Assumptions C31_read_sets.
Example C31_example : exists f u u' d, write_sets noclock None uff0 [d58_bin] (lit "add") true = (Some f, u, None) /\
  read_sets (Some f) u (SelOne 0) false = Ok (u', One d) /\ dget d (KS "x") <> Some VNone.
Proof. eexists _, _, _, _. split; [vm_compute; reflexivity|]. split; [vm_compute; reflexivity|]. vm_compute. discriminate. Qed.

(* ------------------------------------------------------------------ *)
(** C32: the declared length: eight bytes (single precision: four) per point,
    while the payload has eight bytes per number. *)
Theorem C32_payload_length : forall r, Z.of_nat (length (payload r)) = (8 * Z.of_nat (length (q_pts r)) * ((if q_even r then 0 else 1) + (if q_cplx r then 2 else 1)))%Z.
Proof.
  intro r. unfold payload. induction (q_pts r) as [|p l IH]; [reflexivity|]. cbn [flat_map]. rewrite map_app, concat_app, app_length, Nat2Z.inj_add, IH.
  assert (E : Z.of_nat (length (concat (map pack_d (p_vals (q_cplx r) (q_even r) p)))) = (8 * ((if q_even r then 0 else 1) + (if q_cplx r then 2 else 1)))%Z).
  { unfold p_vals. destruct (q_even r), (q_cplx r); cbn [map app concat]; rewrite ?app_length, !pack_d_length; reflexivity. }
  rewrite E. cbn [length]. rewrite Nat2Z.inj_succ. destruct (q_even r), (q_cplx r); lia.
Qed.
Print Assumptions C32_payload_length.
Theorem C32_only_real_even : forall r, q_pts r <> [] -> n_bytes58 r = Z.of_nat (length (payload r)) <-> q_dbl r = true /\ q_even r = true /\ q_cplx r = false.
Proof.
  intros r Hp. rewrite C32_payload_length. unfold n_bytes58. destruct (q_pts r) as [|p l]; [congruence|]. cbn [length]. rewrite Nat2Z.inj_succ.
  destruct (q_dbl r), (q_even r), (q_cplx r); split; intros; try (intuition discriminate); try lia; auto.
Qed.
Print Assumptions C32_only_real_even.
Theorem C32_refuted : exists f u out p, write_sets noclock None uff0 [d58_bin] (lit "add") true = (Some f, u, None) /\
  read_sets (Some f) u (SelOne 0) false = Ok (u, One out) /\ dget out (KS "n_bytes") = Some (VInt 24) /\
  nth_error (block_ind u) 0 = Some p /\ length (join (skipn 13 (splitlines_bytes true (extract_block f p)))) = 72.
Proof. eexists _, _, _, _. split; [vm_compute; reflexivity|]. split; [vm_compute; reflexivity|]. split; [vm_compute; reflexivity|]. split; vm_compute; reflexivity. Qed.
Print Assumptions C32_refuted.

(* ------------------------------------------------------------------ *)
(** C33: NaN becomes zero and infinities the largest double, in every set with a
    'data' entry (a sequence of numbers), before the writer sees it. *)
Definition clean1 (f g : float) : Prop :=
  match f with S754_nan => g = S754_zero false | S754_infinity s => g = S754_finite s 9007199254740991 971 | _ => g = f end.
Inductive cleaned : pyval -> pyval -> Prop :=
| cl_float : forall f g, clean1 f g -> cleaned (VFloat f) (VFloat g)
| cl_cplx : forall a b a' b', clean1 a a' -> clean1 b b' -> cleaned (VCplx a b) (VCplx a' b')
| cl_int : forall z, cleaned (VInt z) (VInt z)
| cl_other : forall v, (forall f, v <> VFloat f) -> (forall a b, v <> VCplx a b) -> cleaned v v.
Lemma clean1_ntn : forall f, clean1 f (nan_to_num1 f).
Proof. intros [s|s| |s m e]; reflexivity. Qed.
Lemma clean1_finite : forall f g, clean1 f g -> f_finite g = true.
Proof. intros [s|s| |s m e] g H; cbn in H; subst g; reflexivity. Qed.
Lemma cleaned_ntn : forall v, cleaned v (nan_to_num_elt v).
Proof. intros v. destruct v; cbn [nan_to_num_elt]; constructor; try apply clean1_ntn; discriminate. Qed.
Lemma ntn1_idem : forall f, nan_to_num1 (nan_to_num1 f) = nan_to_num1 f.
Proof. intros [s|s| |s m e]; reflexivity. Qed.
Lemma ntn_idem : forall v, nan_to_num_elt (nan_to_num_elt v) = nan_to_num_elt v.
Proof. intros v. destruct v; cbn [nan_to_num_elt]; rewrite ?ntn1_idem; reflexivity. Qed.
Lemma dput_twice : forall d k v, dput (dput d k v) k v = dput d k v.
Proof.
  intros d k v. induction d as [|[k0 v0] d IH]; cbn [dput].
  - destruct (key_eqb_spec k k); [reflexivity|congruence].
  - destruct (key_eqb k k0) eqn:E; cbn [dput]; rewrite E; [reflexivity|]. rewrite IH. reflexivity.
Qed.
Theorem C33_cleaned_first : forall c m fd d v dt vs, dget d (KS "data") = Some v -> match v with VArr _ _ | VList _ => True | _ => False end -> np_asarray v = Ok (dt, vs) ->
  exists vs', Forall2 cleaned vs vs' /\ set_items c m fd d = set_items c m fd (dput d (KS "data") (VArr dt vs')).
Proof.
  intros c m fd d v dt vs Hv Hk Ha. exists (map nan_to_num_elt vs). split.
  - clear. induction vs as [|a l IH]; constructor; [apply cleaned_ntn|exact IH].
  - unfold set_items. rewrite !dget_dput, Hv. change (key_eqb (KS "type") (KS "data")) with false. change (key_eqb (KS "data") (KS "data")) with true. cbn iota.
    destruct (dget d (KS "type")) as [ty|]; [|reflexivity].
    assert (E : np_nan_to_num v = Ok (VArr dt (map nan_to_num_elt vs))) by (destruct v; try contradiction; unfold np_nan_to_num; rewrite Ha; reflexivity).
    rewrite E. cbn [np_nan_to_num np_asarray rbind fst snd]. rewrite map_map.
    rewrite (map_ext _ _ ntn_idem). rewrite dput_twice. reflexivity.
Qed.
Print Assumptions C33_cleaned_first.
(** The numbers stored for the points are all finite. *)
Theorem C33_finite_58 : forall fd bin d r, repr58 fd bin d r -> wf58 r -> Forall (fun f => f_finite f = true) (flat_map (p_vals (q_cplx r) (q_even r)) (q_pts r)).
Proof.
  intros fd bin d r _ W. apply Forall_fm. eapply Forall_impl; [|exact (wf58_pts r W)]. intros p Hp. eapply Forall_impl; [|apply p_vals_ok; exact Hp]. intros f Hf. apply Hf.
Qed.
Print Assumptions C33_finite_58.
(** Whatever the data were, finite values are read back. *)
Definition finite_val (v : pyval) : Prop := match v with VFloat f => f_finite f = true | VCplx a b => f_finite a = true /\ f_finite b = true | _ => False end.
Theorem C33_read_finite : forall fd bin d r, repr58 fd bin d r -> wf58 r -> exists dt l, dget (read58 bin false r) (KS "data") = Some (VArr dt l) /\ Forall finite_val l.
Proof.
  intros fd bin d r R W. assert (Hi := repr58_ids _ _ _ _ R). set (pts := map (if bin then npt else rpt (q_dbl r)) (q_pts r)).
  assert (E : dget (read58 bin false r) (KS "data") = Some (y_out (q_cplx r) pts)).
  { unfold read58, base58, head_out. fold pts. destruct (q_ids r) as [|s1 [|s2 [|s3 [|s4 [|s5 [|]]]]]]; try discriminate. destruct bin; reflexivity. }
  assert (F : Forall (fun p : pt => f_finite (fst (snd p)) = true /\ f_finite (snd (snd p)) = true) pts).
  { unfold pts. rewrite Forall_map. eapply Forall_impl; [|exact (wf58_pts r W)]. intros p Hp. destruct bin.
    - destruct Hp as (_ & H2 & H3). apply ntn_ok in H2. apply ntn_ok in H3. split; [apply H2|apply H3].
    - destruct (rpt_ok (q_dbl r) p Hp) as [H1 [_ H2]]. split; assumption. }
  rewrite E. unfold y_out. destruct (q_cplx r).
  - eexists _, _. split; [reflexivity|]. rewrite Forall_map. eapply Forall_impl; [|exact F]. intros p [H1 H2]. split.
    + unfold re_part. destruct (fst (snd p)) as [s|s| |s m e]; try discriminate; reflexivity.
    + unfold im_part. destruct (snd (snd p)) as [s|s| |s m e]; try discriminate; reflexivity.
  - eexists _, _. split; [reflexivity|]. rewrite !Forall_map. eapply Forall_impl; [|exact F]. intros p [H1 _]. exact H1.
Qed.
Print Assumptions C33_read_finite.
Example C33_example : In (fl "nan") (map (fun p => fst (snd p)) (q_pts r58_even)) /\ In (fl "inf") (map (fun p => snd (snd p)) (q_pts r58_uneven)).
Proof. split; vm_compute; auto. Qed.
