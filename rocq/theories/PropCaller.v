(** What a call does to the dictionary of the caller: C68, C69. *)
From Coq Require Import String List NArith ZArith Bool Lia.
Import ListNotations.
From Verif Require Import PyBase PyNum PyVal Utf8 Facts Tools DsNodes DsHeaders Ds55 Ds58 Ds2414 DsGroups Uff DictFacts PropContainer PropHeads PropFun.
From Coq Require Import Lia.
Open Scope string_scope. Open Scope list_scope. Open Scope nat_scope.

(* ------------------------------------------------------------------ *)
(** ** The documented optional fields and their defaults *)
Definition each (v : pyval) (l : list string) : dict := map (fun k => (KS k, v)) l.
Definition none : pyval := VStr (lit "NONE").
Definition group_keys : list string :=
  ["active_constraint_set_no_for_group"; "active_restraint_set_no_for_group"; "active_load_set_no_for_group";
   "active_dof_set_no_for_group"; "active_temperature_set_no_for_group"; "active_contact_set_no_for_group"].
(** [n] is the number of nodes or coordinate systems of the set. *)
Definition documented (c : clock) (n : nat) (ty : pyval) : dict :=
  let is := py_eqZ ty in
  if is 15%Z then each (VArr DInt (repeat (VInt 0) n)) ["def_cs"; "disp_cs"; "color"]
  else if is 18%Z then
    each (VArr DInt (repeat (VInt 0) n)) ["cs_type"; "color"] ++ each (VArr DInt (repeat (VInt 1) n)) ["method"]
    ++ each (VList (repeat (VStr []) n)) ["cs_name"]
  else if is 55%Z then
    each (VStr (lit " ")) ["units_description"] ++ each none ["id1"; "id2"; "id3"; "id4"; "id5"] ++ each (VInt 1) ["model_type"]
    ++ each (VInt 0) ["modal_m"; "modal_damp_vis"; "modal_damp_his"] ++ each (VCplx f_zero f_zero) ["modal_b"; "modal_a"]
  else if is 58%Z then
    each (VStr []) ["units_description"]
    ++ each none ["id1"; "id2"; "id3"; "id4"; "id5"; "rsp_ent_name"; "ref_ent_name"; "abscissa_axis_lab"; "abscissa_axis_units_lab";
         "ordinate_axis_lab"; "ordinate_axis_units_lab"; "orddenom_axis_lab"; "orddenom_axis_units_lab"; "z_axis_axis_lab"; "z_axis_axis_units_lab"]
    ++ each (VInt 0) ["func_id"; "ver_num"; "binary"; "load_case_id"; "abscissa_len_unit_exp"; "abscissa_force_unit_exp"; "abscissa_temp_unit_exp";
         "ordinate_len_unit_exp"; "ordinate_force_unit_exp"; "ordinate_temp_unit_exp"; "orddenom_len_unit_exp"; "orddenom_force_unit_exp";
         "orddenom_temp_unit_exp"; "z_axis_len_unit_exp"; "z_axis_force_unit_exp"; "z_axis_temp_unit_exp"; "z_axis_value"; "spec_data_type";
         "abscissa_spec_data_type"; "ordinate_spec_data_type"; "z_axis_spec_data_type"; "version_num"; "abscissa_spacing"]
  else if is 82%Z then each none ["id"] ++ each (VInt 0) ["color"]
  else if is 151%Z then
    each (VStr (lit "0")) ["version_db1"; "version_db2"; "file_type"]
    ++ each (VStr (now_date c)) ["date_db_created"; "date_db_saved"; "date_file_written"]
    ++ each (VStr (now_time c)) ["time_db_created"; "time_db_saved"; "time_file_written"]
  else if is 164%Z then each (VStr (lit "User unit system")) ["units_description"] ++ each (VInt 1) ["temp_mode"]
  else if is 1858%Z then []
  else if is 2400%Z then
    each (VInt 0) ["model_uid"; "entity_type"; "entity_subtype"; "version_number"; "idm_version_id"; "idm_item_id"; "primary_parent_uid"; "optimization_switches"]
    ++ each (VStr []) ["entity_name"; "part_number"; "date"; "time"] ++ each (VList (repeat (VInt 0) 32)) ["status_mask"]
  else if is 2411%Z then []
  else if is 2412%Z then []
  else if is 2414%Z then
    each (VInt 0)
      ["record10_field1"; "record10_field2"; "record10_field3"; "record10_field4"; "record10_field5"; "record10_field6"; "record10_field7"; "record10_field8";
       "record11_field1"; "record11_field2"; "record11_field3"; "record11_field4"; "record11_field5"; "record11_field6"; "record11_field7"; "record11_field8";
       "record12_field1"; "record12_field2"; "record12_field3"; "record12_field4"; "record12_field5"; "record12_field6";
       "record13_field1"; "record13_field2"; "record13_field3"; "record13_field4"; "record13_field5"; "record13_field6"]
  else if is 2420%Z then
    each (VInt 1) ["Part_UID"] ++ each (VStr (lit "None")) ["Part_Name"] ++ each (VList [VInt 0]) ["CS_types"] ++ each (VList [VInt 8]) ["CS_colors"]
  else if is 2429%Z then each (VInt 0) group_keys
  else if is 2467%Z then each (VInt 0) group_keys
  else [].
(** Keys whose value a call may replace, and computed keys it may add. *)
Definition touched (ty : pyval) : list string :=
  "data" :: (if py_eqZ ty 55 then ["modal_a"; "modal_b"] else if py_eqZ ty 58 then ["ord_data_type"; "n_bytes"; "abscissa_min"] else []).
Definition computed (ty : pyval) : list string :=
  if py_eqZ ty 58 then ["ord_data_type"; "abscissa_min"] else [].

Record frame (tch added : list string) (opt d d' : dict) : Prop := {
  fr_kept : forall k v, dget d k = Some v -> ~ In k (map KS tch) -> dget d' k = Some v;
  fr_keys : exists new, map fst d' = map fst d ++ new /\
    forall k, In k new -> dget d k = None /\
      (In k (map KS added) \/ exists v, In (k, v) opt /\ (~ In k (map KS tch) -> dget d' k = Some v)) }.

(* ------------------------------------------------------------------ *)
(** ** Proofs *)
Lemma dget_In : forall d k v, dget d k = Some v -> In (k, v) d.
Proof.
  induction d as [|[k0 v0] d IH]; intros k v H; [discriminate|]. cbn [dget] in H.
  destruct (key_eqb_spec k k0); [injection H as ->; subst; left; reflexivity|right; apply IH; exact H].
Qed.
Lemma dput_keys : forall d k v, dget d k <> None -> map fst (dput d k v) = map fst d.
Proof.
  induction d as [|[k0 v0] d IH]; intros k v H; [contradiction H; reflexivity|]. cbn [dput dget] in *.
  destruct (key_eqb_spec k k0); cbn [map fst]; [reflexivity|]. rewrite IH by exact H. reflexivity.
Qed.
Lemma dput_same : forall d k v, dget d k = Some v -> dput d k v = d.
Proof.
  induction d as [|[k0 v0] d IH]; intros k v H; [discriminate|]. cbn [dput dget] in *.
  destruct (key_eqb_spec k k0); [injection H as ->; reflexivity|]. rewrite IH by exact H. reflexivity.
Qed.
Lemma frame_refl : forall t a o d, frame t a o d d.
Proof. intros. split; [auto|]. exists []. rewrite app_nil_r. split; [reflexivity|contradiction]. Qed.
Lemma frame_opt : forall t a o d defs, incl defs o -> frame t a o d (opt_fields d defs).
Proof.
  intros t a o d defs Hi. split.
  - intros k v Hk _. rewrite opt_fields_get, Hk. reflexivity.
  - exists (map fst (missing d defs)). rewrite opt_fields_app at 1. rewrite map_app. split; [reflexivity|].
    intros k Hk. apply in_map_iff in Hk. destruct Hk as [kv [<- Hk]]. apply missing_incl in Hk. destruct Hk as [Hin Hn].
    split; [exact Hn|]. right. assert (Hd := in_map fst _ _ Hin). apply dget_In_keys in Hd.
    destruct (dget defs (fst kv)) as [v|] eqn:E; [|contradiction]. exists v. split; [apply Hi, dget_In, E|].
    intros _. rewrite opt_fields_get, Hn. exact E.
Qed.
Lemma frame_put : forall t a o d k v, In k t -> (dget d (KS k) = None -> In k a) -> frame t a o d (dput d (KS k) v).
Proof.
  intros t a o d k v Ht Ha. split.
  - intros k' v' Hk Hn. rewrite dget_dput. destruct (key_eqb_spec k' (KS k)); [|exact Hk].
    subst. contradiction Hn. apply in_map. exact Ht.
  - destruct (dget d (KS k)) eqn:E.
    + exists []. rewrite app_nil_r. split; [apply dput_keys; congruence|contradiction].
    + exists [KS k]. rewrite dput_fresh by exact E. rewrite map_app. split; [reflexivity|].
      intros k' [<-|[]]. split; [exact E|]. left. apply in_map. apply Ha. reflexivity.
Qed.
Lemma dget_None_keys : forall d d' new k, map fst d' = map fst d ++ new -> dget d' k = None -> dget d k = None.
Proof.
  intros d d' new k E H. apply dget_None. apply dget_None in H. intro Hi. apply H. rewrite E. apply in_or_app. left. exact Hi.
Qed.
Lemma frame_trans : forall t a o d1 d2 d3, frame t a o d1 d2 -> frame t a o d2 d3 -> frame t a o d1 d3.
Proof.
  intros t a o d1 d2 d3 [K1 [n1 [E1 N1]]] [K2 [n2 [E2 N2]]]. split.
  - intros k v Hk Hn. apply K2; [apply K1; assumption|exact Hn].
  - exists (n1 ++ n2). rewrite E2, E1, app_assoc. split; [reflexivity|]. intros k Hk. apply in_app_or in Hk. destruct Hk as [Hk|Hk].
    + destruct (N1 k Hk) as [Hd Hc]. split; [exact Hd|]. destruct Hc as [Hc|[v [Hi Hv]]]; [left; exact Hc|].
      right. exists v. split; [exact Hi|]. intro Hn. apply K2; [apply Hv, Hn|exact Hn].
    + destruct (N2 k Hk) as [Hd Hc]. split; [|exact Hc]. eapply dget_None_keys; [exact E1|exact Hd].
Qed.

(** *** The dictionary of a function set *)
Ltac step_in H := match type of H with rbind ?r _ = Ok _ => destruct r eqn:?; [cbn [rbind] in H|discriminate H] end.
Ltac tail58 H := repeat step_in H; injection H as <-; cbn [rbind p_d];
  repeat (match goal with E : ?r = Ok _ |- context [?r] => rewrite E; cbn [rbind] end); reflexivity.
Lemma left58_ok : forall d0 fd p, prepare58_write d0 fd = Ok p -> left58 d0 fd = p_d p.
Proof.
  intros d0 fd p H. unfold prepare58_write in H. unfold left58.
  destruct (ix d0 "data") as [data|]; [|discriminate]. cbn [rbind] in *.
  destruct (py_len data) as [n|]; [|discriminate]. cbn [rbind] in *.
  destruct (np_iscomplex data) as [c|]; [|discriminate]. cbn [rbind] in *.
  set (d1 := if fd then dput d0 (KS "ord_data_type") (VInt (if c then 6 else 4)) else d0) in *.
  destruct (ix d1 "ord_data_type") as [odt|]; [|discriminate]. cbn [rbind] in *.
  destruct (dmem d1 (KS "n_bytes")).
  - destruct (eq_one_of odt [4; 6]%Z).
    + cbn [rbind] in *. tail58 H.
    + destruct (eq_one_of odt [2; 5]%Z); [|discriminate H]. cbn [rbind] in *. tail58 H.
  - cbn [rbind] in *. tail58 H.
Qed.
Definition stage2 (n : nat) (c : bool) (d1 : dict) : result pre58 :=
  do odt <- ix d1 "ord_data_type" ;;
  let dbl := if eq_one_of odt [4; 6]%Z then Ok true
             else if eq_one_of odt [2; 5]%Z then Ok false else Err UnboundLocalError in
  let nb := do b <- dbl ;; Ok (Z.of_nat n * (if b then 8 else 4))%Z in
  do d2 <- (if dmem d1 (KS "n_bytes") then do b <- nb ;; Ok (dput d1 (KS "n_bytes") (VInt b)) else Ok d1) ;;
  do sp <- ix d2 "abscissa_spacing" ;;
  do even <- truthy sp ;;
  do x0 <- at_ (ix d2 "x") 0 ;;
  let d3 := dput d2 (KS "abscissa_min") x0 in
  do x1 <- at_ (ix d3 "x") 1 ;;
  do dx <- num_sub x1 x0 ;;
  Ok {| p_d := d3; p_n := n; p_r := negb c; p_dbl := dbl; p_nb := nb; p_even := even; p_dx := dx |}.
Definition left2 (n : nat) (d1 : dict) : dict :=
  match (do odt <- ix d1 "ord_data_type" ;;
         do b <- (if dmem d1 (KS "n_bytes")
                  then if eq_one_of odt [4; 6]%Z then Ok (Some (Z.of_nat n * 8)%Z)
                       else if eq_one_of odt [2; 5]%Z then Ok (Some (Z.of_nat n * 4)%Z) else Err UnboundLocalError
                  else Ok None) ;; Ok b) with
  | Err _ => d1
  | Ok b =>
      let d2 := match b with Some b => dput d1 (KS "n_bytes") (VInt b) | None => d1 end in
      match (do sp <- ix d2 "abscissa_spacing" ;; do even <- truthy sp ;; at_ (ix d2 "x") 0) with
      | Err _ => d2
      | Ok x0 => dput d2 (KS "abscissa_min") x0
      end
  end.
Definition forced (fd c : bool) (d0 : dict) : dict := if fd then dput d0 (KS "ord_data_type") (VInt (if c then 6 else 4)) else d0.
Lemma prepare58_stages : forall d0 fd, prepare58_write d0 fd
  = (do data <- ix d0 "data" ;; do n <- py_len data ;; do c <- np_iscomplex data ;; stage2 n c (forced fd c d0)).
Proof. reflexivity. Qed.
Lemma left58_stages : forall d0 fd, left58 d0 fd
  = match (do data <- ix d0 "data" ;; do n <- py_len data ;; do c <- np_iscomplex data ;; Ok (n, c)) with
    | Err _ => d0 | Ok (n, c) => left2 n (forced fd c d0) end.
Proof. reflexivity. Qed.

Lemma ix_put : forall d k v k', ix (dput d (KS k) v) k' = if String.eqb k' k then Ok v else ix d k'.
Proof. intros. unfold ix. rewrite dget_dput. cbn [key_eqb]. destruct (String.eqb k' k); reflexivity. Qed.
Lemma dmem_put : forall d k v k', dmem (dput d (KS k) v) (KS k') = String.eqb k' k || dmem d (KS k').
Proof. intros. unfold dmem. rewrite dget_dput. cbn [key_eqb]. destruct (String.eqb k' k); reflexivity. Qed.
Lemma ix_same : forall d k v, ix d k = Ok v -> dput d (KS k) v = d.
Proof. intros d k v H. apply dput_same. unfold ix in H. destruct (dget d (KS k)); [injection H as ->; reflexivity|discriminate]. Qed.
Lemma dput_swap : forall d k v k' v', k <> k' -> dget d k <> None -> dput (dput d k v) k' v' = dput (dput d k' v') k v.
Proof.
  induction d as [|[k0 v0] d IH]; intros k v k' v' Hn Hd; [contradiction Hd; reflexivity|]. cbn [dput dget] in *.
  destruct (key_eqb_spec k k0); destruct (key_eqb_spec k' k0); cbn [dput];
    repeat match goal with |- context [key_eqb ?a ?b] => destruct (key_eqb_spec a b) end; try congruence.
  f_equal. apply IH; assumption.
Qed.
Definition tail_min (d2 : dict) : dict :=
  match (do sp <- ix d2 "abscissa_spacing" ;; do even <- truthy sp ;; at_ (ix d2 "x") 0) with
  | Err _ => d2 | Ok x0 => dput d2 (KS "abscissa_min") x0 end.
Definition put_nb (b : option Z) (d1 : dict) : dict := match b with Some b => dput d1 (KS "n_bytes") (VInt b) | None => d1 end.
Lemma tail_min_get : forall d k, k <> KS "abscissa_min" -> dget (tail_min d) k = dget d k.
Proof.
  intros d k Hk. unfold tail_min. destruct (do sp <- ix d "abscissa_spacing" ;; do even <- truthy sp ;; at_ (ix d "x") 0); [|reflexivity].
  rewrite dget_dput. destruct (key_eqb_spec k (KS "abscissa_min")); [contradiction|reflexivity].
Qed.
Lemma tail_min_mem : forall d, dmem (tail_min d) (KS "n_bytes") = dmem d (KS "n_bytes").
Proof. intros d. unfold dmem. rewrite tail_min_get by discriminate. reflexivity. Qed.
Lemma tail_min_again : forall d, tail_min (tail_min d) = tail_min d.
Proof.
  intros d. unfold tail_min at 1. unfold ix at 1 2. rewrite !tail_min_get by discriminate.
  fold (ix d "abscissa_spacing"). fold (ix d "x"). unfold tail_min.
  destruct (do sp <- ix d "abscissa_spacing" ;; do even <- truthy sp ;; at_ (ix d "x") 0); [apply dput_twice|reflexivity].
Qed.
Lemma stage2_again : forall n c d, let D := left2 n d in
  stage2 n c D = stage2 n c d /\ left2 n D = D /\
  (forall k, k <> "n_bytes" -> k <> "abscissa_min" -> ix D k = ix d k).
Proof.
  intros n c d. cbv zeta.
  assert (Hl : forall k, k <> "n_bytes" -> k <> "abscissa_min" -> ix (left2 n d) k = ix d k).
  { intros k K1 K2. apply String.eqb_neq in K1. apply String.eqb_neq in K2. unfold left2.
    repeat match goal with |- context [match ?x with _ => _ end] => destruct x end; rewrite ?ix_put, ?K1, ?K2; reflexivity. }
  split; [|split]; [| |exact Hl].
  all: assert (Ho := Hl "ord_data_type" ltac:(discriminate) ltac:(discriminate)).
  all: assert (Hs := Hl "abscissa_spacing" ltac:(discriminate) ltac:(discriminate)).
  all: assert (Hx := Hl "x" ltac:(discriminate) ltac:(discriminate)).
  - unfold stage2. rewrite Ho. destruct (ix d "ord_data_type") as [odt|e] eqn:Eo; [cbn [rbind]|reflexivity].
    revert Hs Hx. unfold left2. rewrite Eo. cbn [rbind].
    assert (St : forall d2, ix d2 "abscissa_spacing" = ix d "abscissa_spacing" -> ix d2 "x" = ix d "x" ->
       forall dbl nb,
      (do sp <- ix (match (do sp <- ix d2 "abscissa_spacing" ;; do even <- truthy sp ;; at_ (ix d2 "x") 0) with Err _ => d2 | Ok x0 => dput d2 (KS "abscissa_min") x0 end) "abscissa_spacing" ;;
       do even <- truthy sp ;;
       do x0 <- at_ (ix (match (do sp <- ix d2 "abscissa_spacing" ;; do even <- truthy sp ;; at_ (ix d2 "x") 0) with Err _ => d2 | Ok x0 => dput d2 (KS "abscissa_min") x0 end) "x") 0 ;;
       let d3 := dput (match (do sp <- ix d2 "abscissa_spacing" ;; do even <- truthy sp ;; at_ (ix d2 "x") 0) with Err _ => d2 | Ok x0 => dput d2 (KS "abscissa_min") x0 end) (KS "abscissa_min") x0 in
       do x1 <- at_ (ix d3 "x") 1 ;; do dx <- num_sub x1 x0 ;;
       Ok {| p_d := d3; p_n := n; p_r := negb c; p_dbl := dbl; p_nb := nb; p_even := even; p_dx := dx |})
      = (do sp <- ix d2 "abscissa_spacing" ;; do even <- truthy sp ;; do x0 <- at_ (ix d2 "x") 0 ;;
         let d3 := dput d2 (KS "abscissa_min") x0 in
         do x1 <- at_ (ix d3 "x") 1 ;; do dx <- num_sub x1 x0 ;;
         Ok {| p_d := d3; p_n := n; p_r := negb c; p_dbl := dbl; p_nb := nb; p_even := even; p_dx := dx |})).
    { intros d2 _ _ dbl nb. destruct (ix d2 "abscissa_spacing") as [sp|e] eqn:E1; cbn [rbind]; [|rewrite E1; reflexivity].
      destruct (truthy sp) as [ev|e] eqn:E2; cbn [rbind]; [|rewrite E1; cbn [rbind]; rewrite E2; reflexivity].
      destruct (at_ (ix d2 "x") 0) as [x0|e] eqn:E3.
      - rewrite !ix_put. cbn [String.eqb Ascii.eqb Bool.eqb]. rewrite E1. cbn [rbind]. rewrite E2. cbn [rbind]. rewrite E3. cbn [rbind].
        rewrite dput_twice. reflexivity.
      - rewrite E1. cbn [rbind]. rewrite E2. cbn [rbind]. rewrite E3. reflexivity. }
    intros _ _. destruct (dmem d (KS "n_bytes")) eqn:Em.
    + destruct (eq_one_of odt [4; 6]%Z) eqn:E4.
      * cbn [rbind]. rewrite <- (St (dput d (KS "n_bytes") (VInt (Z.of_nat n * 8)))) by (rewrite ix_put; reflexivity).
        set (D := match _ with Ok _ => _ | Err _ => _ end).
        assert (HD : dget D (KS "n_bytes") = Some (VInt (Z.of_nat n * 8))).
        { unfold D. repeat match goal with |- context [match ?x with _ => _ end] => destruct x end; rewrite ?dget_dput; reflexivity. }
        unfold dmem. rewrite HD. rewrite dput_same by exact HD. reflexivity.
      * destruct (eq_one_of odt [2; 5]%Z) eqn:E5; cbn [rbind]; [|rewrite Em; reflexivity].
        rewrite <- (St (dput d (KS "n_bytes") (VInt (Z.of_nat n * 4)))) by (rewrite ix_put; reflexivity).
        set (D := match _ with Ok _ => _ | Err _ => _ end).
        assert (HD : dget D (KS "n_bytes") = Some (VInt (Z.of_nat n * 4))).
        { unfold D. repeat match goal with |- context [match ?x with _ => _ end] => destruct x end; rewrite ?dget_dput; reflexivity. }
        unfold dmem. rewrite HD. rewrite dput_same by exact HD. reflexivity.
    + cbn [rbind]. rewrite <- (St d) by reflexivity.
      set (D := match _ with Ok _ => _ | Err _ => _ end).
      assert (HD : dmem D (KS "n_bytes") = false).
      { unfold D. repeat match goal with |- context [match ?x with _ => _ end] => destruct x end; rewrite ?dmem_put; exact Em. }
      rewrite HD. reflexivity.
  - destruct (ix d "ord_data_type") as [odt|e] eqn:Eo.
    2: { assert (E : left2 n d = d) by (unfold left2; rewrite Eo; reflexivity). rewrite !E. reflexivity. }
    assert (Sh : left2 n d = match (if dmem d (KS "n_bytes")
                  then if eq_one_of odt [4; 6]%Z then Ok (Some (Z.of_nat n * 8)%Z)
                       else if eq_one_of odt [2; 5]%Z then Ok (Some (Z.of_nat n * 4)%Z) else Err UnboundLocalError
                  else Ok None) with Err _ => d | Ok b => tail_min (put_nb b d) end).
    { unfold left2. rewrite Eo. cbn [rbind].
      destruct (dmem d (KS "n_bytes")); [destruct (eq_one_of odt [4; 6]%Z); [|destruct (eq_one_of odt [2; 5]%Z)]|]; reflexivity. }
    assert (Sh2 : left2 n (left2 n d) = match (if dmem (left2 n d) (KS "n_bytes")
                  then if eq_one_of odt [4; 6]%Z then Ok (Some (Z.of_nat n * 8)%Z)
                       else if eq_one_of odt [2; 5]%Z then Ok (Some (Z.of_nat n * 4)%Z) else Err UnboundLocalError
                  else Ok None) with Err _ => left2 n d | Ok b => tail_min (put_nb b (left2 n d)) end).
    { unfold left2 at 1. rewrite Ho. cbn [rbind].
      destruct (dmem (left2 n d) (KS "n_bytes")); [destruct (eq_one_of odt [4; 6]%Z); [|destruct (eq_one_of odt [2; 5]%Z)]|]; reflexivity. }
    rewrite Sh2, Sh. destruct (dmem d (KS "n_bytes")) eqn:Em.
    + assert (A : forall b, put_nb (Some b) (tail_min (put_nb (Some b) d)) = tail_min (put_nb (Some b) d)).
      { intro b. cbn [put_nb]. apply dput_same. rewrite tail_min_get by discriminate. rewrite dget_dput. reflexivity. }
      assert (B : forall b, dmem (tail_min (put_nb (Some b) d)) (KS "n_bytes") = true).
      { intro b. rewrite tail_min_mem. cbn [put_nb]. rewrite dmem_put. reflexivity. }
      destruct (eq_one_of odt [4; 6]%Z); [|destruct (eq_one_of odt [2; 5]%Z)]; [| |rewrite Em; reflexivity].
      all: rewrite B, A; apply tail_min_again.
    + rewrite tail_min_mem. cbn [put_nb]. rewrite Em. apply tail_min_again.
Qed.

Lemma ix_forced : forall fd c d k, k <> "ord_data_type" -> ix (forced fd c d) k = ix d k.
Proof.
  intros [] c d k Hk; [|reflexivity]. unfold forced. rewrite ix_put. apply String.eqb_neq in Hk. rewrite Hk. reflexivity.
Qed.
(** A second preparation, with the same or a weaker [force_double]. *)
Lemma prepare58_again : forall fd fd' d, (fd' = true -> fd = true) ->
  prepare58_write (left58 d fd) fd' = prepare58_write d fd /\ left58 (left58 d fd) fd' = left58 d fd.
Proof.
  intros fd fd' d Hfd. rewrite !prepare58_stages, !left58_stages.
  destruct (ix d "data") as [data|e] eqn:Ed; cbn [rbind]; [|rewrite Ed; split; reflexivity].
  destruct (py_len data) as [n|e] eqn:En; cbn [rbind]; [|rewrite Ed; cbn [rbind]; rewrite En; split; reflexivity].
  destruct (np_iscomplex data) as [c|e] eqn:Ec; cbn [rbind]; [|rewrite Ed; cbn [rbind]; rewrite En; cbn [rbind]; rewrite Ec; split; reflexivity].
  destruct (stage2_again n c (forced fd c d)) as [S1 [S2 S3]]. cbv zeta in S1, S2, S3.
  rewrite S3 by discriminate. rewrite ix_forced by discriminate. rewrite Ed. cbn [rbind]. rewrite En. cbn [rbind]. rewrite Ec. cbn [rbind].
  assert (F : forced fd' c (left2 n (forced fd c d)) = left2 n (forced fd c d)).
  { destruct fd'; [|reflexivity]. rewrite (Hfd eq_refl) in *. unfold forced at 1. apply ix_same. rewrite S3 by discriminate.
    unfold forced. rewrite ix_put. reflexivity. }
  rewrite F. split; [exact S1|exact S2].
Qed.
Lemma left58_frame : forall o d fd, frame ["data"; "ord_data_type"; "n_bytes"; "abscissa_min"] ["ord_data_type"; "abscissa_min"] o d (left58 d fd).
Proof.
  intros o d fd. rewrite left58_stages.
  destruct (do data <- ix d "data" ;; do n <- py_len data ;; do c <- np_iscomplex data ;; Ok (n, c)) as [[n c]|]; [|apply frame_refl].
  eapply frame_trans with (forced fd c d).
  { destruct fd; [|apply frame_refl]. apply frame_put; [right; left; reflexivity|intros _; left; reflexivity]. }
  generalize (forced fd c d). clear. intro d. unfold left2.
  destruct (ix d "ord_data_type") as [odt|]; cbn [rbind]; [|apply frame_refl].
  destruct (dmem d (KS "n_bytes")) eqn:Em.
  - destruct (if eq_one_of odt [4; 6]%Z then _ else _) as [b|] eqn:Eb; cbn [rbind]; [|apply frame_refl].
    fold (put_nb b d). fold (tail_min (put_nb b d)). apply frame_trans with (put_nb b d).
    + destruct b; [|apply frame_refl]. apply frame_put; [right; right; left; reflexivity|]. intro H. unfold dmem in Em. rewrite H in Em. discriminate.
    + unfold tail_min. destruct (do sp <- _ ;; _); [|apply frame_refl]. apply frame_put; [do 3 right; left; reflexivity|intros _; right; left; reflexivity].
  - cbn [rbind]. fold (tail_min d). unfold tail_min. destruct (do sp <- _ ;; _); [|apply frame_refl].
    apply frame_put; [do 3 right; left; reflexivity|intros _; right; left; reflexivity].
Qed.

(** *** All plans *)
Lemma opt_again : forall d defs defs', map fst defs' = map fst defs -> opt_fields (opt_fields d defs) defs' = opt_fields d defs.
Proof.
  intros d defs defs' Hk. rewrite opt_fields_app with (d := opt_fields d defs). rewrite missing_none; [apply app_nil_r|].
  intros k Hi. rewrite Hk in Hi. rewrite opt_fields_get. apply dget_In_keys in Hi. destruct (dget d k); [discriminate|assumption].
Qed.
Lemma ix_opt : forall d defs k v, ix d k = Ok v -> ix (opt_fields d defs) k = Ok v.
Proof. intros d defs k v H. unfold ix in *. rewrite opt_fields_get. destruct (dget d (KS k)); [exact H|discriminate]. Qed.
Lemma again15 : forall d, write15 (wp_dict (write15 d)) = write15 d.
Proof.
  intro d. unfold write15 at 2 3. destruct (ix d "node_nums") as [v|] eqn:E; cbn [rbind wp_dict]; [|unfold write15; rewrite E; reflexivity].
  destruct (py_len v) as [n|] eqn:En; cbn [wp_dict]; [|unfold write15; rewrite E; cbn [rbind]; rewrite En; reflexivity].
  unfold write15. rewrite (ix_opt _ _ _ _ E). cbn [rbind]. rewrite En. rewrite opt_again by reflexivity. reflexivity.
Qed.
Lemma again18 : forall d, write18 (wp_dict (write18 d)) = write18 d.
Proof.
  intro d. unfold write18 at 2 3. destruct (ix d "cs_num") as [v|] eqn:E; cbn [rbind wp_dict]; [|unfold write18; rewrite E; reflexivity].
  destruct (py_len v) as [n|] eqn:En; cbn [wp_dict]; [|unfold write18; rewrite E; cbn [rbind]; rewrite En; reflexivity].
  unfold write18. rewrite (ix_opt _ _ _ _ E). cbn [rbind]. rewrite En. rewrite opt_again by reflexivity. reflexivity.
Qed.

Lemma opt_full : forall d defs, (forall k, In k (map fst defs) -> dget d k <> None) -> opt_fields d defs = d.
Proof. intros d defs H. rewrite opt_fields_app, missing_none by exact H. apply app_nil_r. Qed.
Definition has_all (d : dict) (ks : list key) : Prop := forall k, In k ks -> dget d k <> None.
Lemma has_opt : forall d defs, has_all (opt_fields d defs) (map fst defs).
Proof. intros d defs k Hk. rewrite opt_fields_get. apply dget_In_keys in Hk. destruct (dget d k); [discriminate|exact Hk]. Qed.
Lemma has_opt_kept : forall d defs ks, has_all d ks -> has_all (opt_fields d defs) ks.
Proof. intros d defs ks H k Hk. rewrite opt_fields_get. specialize (H k Hk). destruct (dget d k); [discriminate|contradiction]. Qed.
Lemma has_put_kept : forall d k v ks, has_all d ks -> has_all (dput d k v) ks.
Proof. intros d k v ks H k' Hk. rewrite dget_dput. destruct (key_eqb k' k); [discriminate|]. apply H, Hk. Qed.
Lemma add_0j_again : forall v a, add_0j v = Ok a -> add_0j a = Ok a.
Proof.
  intros v a H. unfold add_0j in H. destruct (np_iscomplex v) as [[]|] eqn:E; cbn [rbind] in H; [| |discriminate].
  - injection H as <-. unfold add_0j. rewrite E. reflexivity.
  - destruct v; try discriminate; destruct (fmt_float_arg _); try discriminate; injection H as <-; reflexivity.
Qed.
Definition base55 : dict :=
    [(KS "units_description", VStr (lit " ")); (KS "id1", VStr (lit "NONE")); (KS "id2", VStr (lit "NONE"));
     (KS "id3", VStr (lit "NONE")); (KS "id4", VStr (lit "NONE")); (KS "id5", VStr (lit "NONE"));
     (KS "model_type", VInt 1)].
Definition real55 : dict := [(KS "modal_m", VInt 0); (KS "modal_damp_vis", VInt 0); (KS "modal_damp_his", VInt 0)].
Definition cplx55 : dict := [(KS "modal_b", VCplx f_zero f_zero); (KS "modal_a", VCplx f_zero f_zero)].
Lemma prep55_eq : forall d, prep55 d =
  let d0 := opt_fields d base55 in
  match ix d0 "analysis_type" with
  | Err e => (d0, Err e)
  | Ok at_v =>
      if py_eqZ at_v 2 then (opt_fields d0 real55, Ok 2%Z)
      else if py_eqZ at_v 3 || py_eqZ at_v 7 then
        let d1 := opt_fields d0 cplx55 in
        match (do v <- ix d1 "modal_a" ;; add_0j v) with
        | Err e => (d1, Err e)
        | Ok a =>
            let d2 := dput d1 (KS "modal_a") a in
            match (do v <- ix d2 "modal_b" ;; add_0j v) with
            | Err e => (d2, Err e)
            | Ok b => (dput d2 (KS "modal_b") b, Ok (if py_eqZ at_v 3 then 3 else 7)%Z)
            end
        end
      else if py_eqZ at_v 5 then (d0, Ok 5%Z)
      else (d0, Err ValueError)
  end.
Proof. reflexivity. Qed.
Lemma prep55_again : forall d, prep55 (fst (prep55 d)) = prep55 d.
Proof.
  intro d. rewrite (prep55_eq d). cbv zeta.
  assert (H0 : has_all (opt_fields d base55) (map fst base55)) by apply has_opt.
  revert H0. generalize (opt_fields d base55). clear d. intros d H0.
  destruct (ix d "analysis_type") as [at_v|e] eqn:Ea; cbn [fst].
  2: { rewrite prep55_eq. cbv zeta. rewrite opt_full by exact H0. rewrite Ea. reflexivity. }
  destruct (py_eqZ at_v 2) eqn:E2; cbn [fst].
  { rewrite prep55_eq. cbv zeta. rewrite opt_full by (apply has_opt_kept, H0). rewrite (ix_opt _ _ _ _ Ea), E2.
    rewrite opt_again by reflexivity. reflexivity. }
  destruct (py_eqZ at_v 3 || py_eqZ at_v 7)%bool eqn:E37.
  2: { destruct (py_eqZ at_v 5) eqn:E5; cbn [fst]; rewrite prep55_eq; cbv zeta; rewrite opt_full by exact H0; rewrite Ea, E2, E37, E5; reflexivity. }
  assert (H1 : has_all (opt_fields d cplx55) (map fst base55)) by (apply has_opt_kept, H0).
  assert (H2 : has_all (opt_fields d cplx55) (map fst cplx55)) by apply has_opt.
  apply (ix_opt _ cplx55) in Ea. revert Ea H1 H2. generalize (opt_fields d cplx55). clear d H0. intros d Ea H1 H2.
  destruct (ix d "modal_a") as [a|] eqn:E3; cbn [rbind].
  2: { exfalso. apply (H2 (KS "modal_a")); [right; left; reflexivity|]. unfold ix in E3. destruct (dget d (KS "modal_a")); [discriminate|reflexivity]. }
  destruct (add_0j a) as [a'|e] eqn:E4; cbn [fst].
  2: { rewrite prep55_eq. cbv zeta. rewrite opt_full by exact H1. rewrite Ea, E2, E37. rewrite opt_full by exact H2. rewrite E3. cbn [rbind]. rewrite E4. reflexivity. }
  rewrite ix_put. cbn [String.eqb Ascii.eqb Bool.eqb].
  destruct (ix d "modal_b") as [b|] eqn:E5; cbn [rbind].
  2: { exfalso. apply (H2 (KS "modal_b")); [left; reflexivity|]. unfold ix in E5. destruct (dget d (KS "modal_b")); [discriminate|reflexivity]. }
  assert (A : dput (dput d (KS "modal_a") a') (KS "modal_a") a' = dput d (KS "modal_a") a') by apply dput_twice.
  destruct (add_0j b) as [b'|e] eqn:E6; cbn [fst]; rewrite prep55_eq; cbv zeta.
  - rewrite opt_full by (do 2 apply has_put_kept; exact H1). rewrite !ix_put. cbn [String.eqb Ascii.eqb Bool.eqb]. rewrite Ea, E2, E37.
    rewrite opt_full by (do 2 apply has_put_kept; exact H2). rewrite !ix_put. cbn [String.eqb Ascii.eqb Bool.eqb rbind].
    rewrite (add_0j_again _ _ E4). rewrite (dput_same (dput (dput d (KS "modal_a") a') (KS "modal_b") b') (KS "modal_a") a').
    2: { rewrite !dget_dput. reflexivity. }
    rewrite !ix_put. cbn [String.eqb Ascii.eqb Bool.eqb rbind]. rewrite (add_0j_again _ _ E6). rewrite dput_twice. reflexivity.
  - rewrite opt_full by (apply has_put_kept; exact H1). rewrite !ix_put. cbn [String.eqb Ascii.eqb Bool.eqb]. rewrite Ea, E2, E37.
    rewrite opt_full by (apply has_put_kept; exact H2). rewrite !ix_put. cbn [String.eqb Ascii.eqb Bool.eqb rbind].
    rewrite (add_0j_again _ _ E4). rewrite A. rewrite ix_put. cbn [String.eqb Ascii.eqb Bool.eqb]. rewrite E5. cbn [rbind]. rewrite E6. reflexivity.
Qed.
Lemma again55 : forall d, write55 (wp_dict (write55 d)) = write55 d.
Proof.
  intro d. assert (E : wp_dict (write55 d) = fst (prep55 d)) by (unfold write55; destruct (prep55 d); reflexivity).
  rewrite E. unfold write55. rewrite prep55_again. reflexivity.
Qed.
Lemma ix_frame : forall t a o d d' k v, frame t a o d d' -> ix d k = Ok v -> ~ In (KS k) (map KS t) -> ix d' k = Ok v.
Proof.
  intros t a o d d' k v F H Hn. unfold ix in *. destruct (dget d (KS k)) as [w|] eqn:E; [|discriminate]. 
  rewrite (fr_kept _ _ _ _ _ F _ _ E Hn). exact H.
Qed.
Lemma again58 : forall ow fd fd' d, (fd' = true -> fd = true) -> write58 ow fd' (wp_dict (write58 ow fd d)) = write58 ow fd d.
Proof.
  intros ow fd fd' d Hfd. unfold write58 at 2 3.
  destruct (ix d "func_type") as [ft|e] eqn:Ef; cbn [wp_dict].
  2: { unfold write58. rewrite Ef. reflexivity. }
  destruct (negb (eq_one_of ft [0; 1; 2; 3; 4; 6; 9]%Z)) eqn:Eo; cbn [wp_dict].
  { unfold write58. rewrite Ef, Eo. reflexivity. }
  set (d0 := opt_fields d defaults58).
  assert (L : wp_dict (match prepare58_write d0 fd with
    | Ok p => {| wp_dict := p_d p; wp_items := []; wp_wrap := wrap_write "58" |}
    | Err e => {| wp_dict := left58 d0 fd; wp_items := []; wp_wrap := wrap_write "58" |} end) = left58 d0 fd).
  { destruct (prepare58_write d0 fd) eqn:E; [|reflexivity]. cbn [wp_dict]. symmetry. apply left58_ok. exact E. }
  assert (Hd : has_all (left58 d0 fd) (map fst defaults58)).
  { assert (H0 : has_all d0 (map fst defaults58)) by apply has_opt. destruct (fr_keys _ _ _ _ _ (left58_frame [] d0 fd)) as [new [En _]].
    intros k Hk. apply dget_In_keys. rewrite En. apply in_or_app. left. specialize (H0 k Hk). destruct (in_dec (fun a b => reflect_dec _ _ (key_eqb_spec a b)) k (map fst d0)) as [Hi|Hi]; [exact Hi|].
    apply dget_None in Hi. contradiction. }
  assert (Hf : ix (left58 d0 fd) "func_type" = Ok ft).
  { apply (ix_frame _ _ _ _ _ _ _ (left58_frame [] d0 fd)); [apply ix_opt; exact Ef|]. cbn [map In]. intuition discriminate. }
  destruct (prepare58_again fd fd' d0 Hfd) as [P1 P2].
  destruct (prepare58_write d0 fd) as [p|e] eqn:Ep; cbn [wp_dict] in *.
  - replace (write58 ow fd' (p_d p)) with (write58 ow fd' (left58 d0 fd)) by (rewrite L; reflexivity). unfold write58. rewrite Hf, Eo. rewrite opt_full by exact Hd. rewrite P1. reflexivity.
  - unfold write58. rewrite Hf, Eo. rewrite opt_full by exact Hd. rewrite P1, P2. reflexivity.
Qed.

Lemma again151 : forall c c' d, write151 c' (wp_dict (write151 c d)) = write151 c d.
Proof. intros c c' d. unfold write151 at 2 3. cbn [wp_dict]. unfold write151. rewrite opt_again by reflexivity. reflexivity. Qed.
Lemma again82 : forall d, write82 (wp_dict (write82 d)) = write82 d.
Proof. intro d. unfold write82 at 2 3. cbn [wp_dict]. unfold write82. rewrite opt_again by reflexivity. reflexivity. Qed.
Lemma again164 : forall d, write164 (wp_dict (write164 d)) = write164 d.
Proof. intro d. unfold write164 at 2 3. cbn [wp_dict]. unfold write164. rewrite opt_again by reflexivity. reflexivity. Qed.
Lemma again2400 : forall d, write2400 (wp_dict (write2400 d)) = write2400 d.
Proof. intro d. unfold write2400 at 2 3. cbn [wp_dict]. unfold write2400. rewrite opt_again by reflexivity. reflexivity. Qed.
Lemma again2414 : forall d, write2414 (wp_dict (write2414 d)) = write2414 d.
Proof. intro d. unfold write2414 at 2 3. cbn [wp_dict]. unfold write2414. rewrite opt_again by reflexivity. reflexivity. Qed.
Lemma again2420 : forall d, write2420 (wp_dict (write2420 d)) = write2420 d.
Proof. intro d. unfold write2420 at 2 3. cbn [wp_dict]. unfold write2420. rewrite opt_again by reflexivity. reflexivity. Qed.
Lemma again2429 : forall d, write2429 (wp_dict (write2429 d)) = write2429 d.
Proof. intro d. unfold write2429 at 2 3. cbn [wp_dict]. unfold write2429. rewrite opt_again by reflexivity. reflexivity. Qed.
Lemma again2467 : forall d, write2467 (wp_dict (write2467 d)) = write2467 d.
Proof. intro d. unfold write2467 at 2 3. cbn [wp_dict]. unfold write2467. rewrite opt_again by reflexivity. reflexivity. Qed.
Lemma dispatch_again : forall c c' m fd fd' ty d, (fd' = true -> fd = true) ->
  write_dispatch c' m fd' ty (wp_dict (write_dispatch c m fd ty d)) = write_dispatch c m fd ty d.
Proof.
  intros c c' m fd fd' ty d Hfd. unfold write_dispatch. cbv zeta.
  destruct (py_eqZ ty 15); [apply again15|]. destruct (py_eqZ ty 18); [apply again18|]. destruct (py_eqZ ty 55); [apply again55|].
  destruct (py_eqZ ty 58); [apply again58, Hfd|]. destruct (py_eqZ ty 82); [apply again82|]. destruct (py_eqZ ty 151); [apply again151|].
  destruct (py_eqZ ty 164); [apply again164|]. destruct (py_eqZ ty 1858); [reflexivity|]. destruct (py_eqZ ty 2400); [apply again2400|].
  destruct (py_eqZ ty 2411); [reflexivity|]. destruct (py_eqZ ty 2412); [reflexivity|]. destruct (py_eqZ ty 2414); [apply again2414|].
  destruct (py_eqZ ty 2420); [apply again2420|]. destruct (py_eqZ ty 2429); [apply again2429|]. destruct (py_eqZ ty 2467); [apply again2467|].
  reflexivity.
Qed.
Lemma dict_mode : forall c m m' fd ty d, wp_dict (write_dispatch c m fd ty d) = wp_dict (write_dispatch c m' fd ty d).
Proof.
  intros c m m' fd ty d. unfold write_dispatch. cbv zeta.
  destruct (py_eqZ ty 15); [reflexivity|]. destruct (py_eqZ ty 18); [reflexivity|]. destruct (py_eqZ ty 55); [reflexivity|].
  destruct (py_eqZ ty 58); [|reflexivity]. unfold write58. destruct (ix d "func_type"); [|reflexivity].
  destruct (negb _); [reflexivity|]. destruct (prepare58_write _ fd); reflexivity.
Qed.
Lemma prep55_frame : forall t a o d, In "modal_a" t -> In "modal_b" t -> incl base55 o -> incl real55 o -> incl cplx55 o ->
  frame t a o d (fst (prep55 d)).
Proof.
  intros t a o d Ha Hb I0 I1 I2. rewrite prep55_eq. cbv zeta. apply frame_trans with (opt_fields d base55); [apply frame_opt, I0|].
  generalize (opt_fields d base55). clear d. intro d.
  destruct (ix d "analysis_type") as [v|]; [|apply frame_refl]. destruct (py_eqZ v 2); [apply frame_opt, I1|].
  destruct (py_eqZ v 3 || py_eqZ v 7)%bool; [|destruct (py_eqZ v 5); apply frame_refl].
  apply frame_trans with (opt_fields d cplx55); [apply frame_opt, I2|].
  assert (H2 : has_all (opt_fields d cplx55) (map fst cplx55)) by apply has_opt.
  revert H2. generalize (opt_fields d cplx55). clear d. intros d H2.
  destruct (do v <- ix d "modal_a" ;; add_0j v) as [x|]; [|apply frame_refl].
  assert (F : frame t a o d (dput d (KS "modal_a") x)).
  { apply frame_put; [exact Ha|]. intro E. contradiction (H2 (KS "modal_a")). right. left. reflexivity. }
  destruct (do v <- ix (dput d (KS "modal_a") x) "modal_b" ;; add_0j v) as [y|]; [|exact F].
  eapply frame_trans; [exact F|]. apply frame_put; [exact Hb|]. intro E. rewrite dget_dput in E. cbn [key_eqb String.eqb Ascii.eqb Bool.eqb] in E.
  contradiction (H2 (KS "modal_b")). left. reflexivity.
Qed.
Ltac incl_lists := let kv := fresh "kv" in let H := fresh "H" in intros kv H; cbn [each map app In] in *;
  repeat (destruct H as [<-|H]; [repeat (first [left; reflexivity|right])|]); contradiction H.
Definition simple_eqb (a b : pyval) : bool :=
  match a, b with VInt x, VInt y => Z.eqb x y | VStr s, VStr t => leqb s t | _, _ => false end.
Lemma simple_eqb_eq : forall a b, simple_eqb a b = true -> a = b.
Proof.
  intros a b H. destruct a, b; try discriminate H; cbn [simple_eqb] in H; f_equal; [apply Z.eqb_eq, H|apply leqb_eq, H].
Qed.
Lemma incl_fast : forall defs o,
  forallb (fun kv => match dget o (fst kv) with Some v => simple_eqb v (snd kv) | None => false end) defs = true -> incl defs o.
Proof.
  intros defs o H kv Hk. rewrite forallb_forall in H. specialize (H kv Hk). destruct (dget o (fst kv)) as [v|] eqn:E; [|discriminate].
  apply simple_eqb_eq in H. apply dget_In in E. rewrite H in E. destruct kv. exact E.
Qed.
Definition count (ty : pyval) (d : dict) : nat :=
  match dget d (KS (if py_eqZ ty 15 then "node_nums" else "cs_num")) with
  | Some v => match py_len v with Ok n => n | Err _ => 0 end
  | None => 0
  end.
Lemma dispatch_frame : forall c m fd ty d,
  frame (touched ty) (computed ty) (documented c (count ty d) ty) d (wp_dict (write_dispatch c m fd ty d)).
Proof.
  intros c m fd ty d. unfold write_dispatch, documented, count. cbv zeta.
  destruct (py_eqZ ty 15) eqn:E15.
  { unfold write15, ix. destruct (dget d (KS "node_nums")) as [v|]; cbn [of_option rbind]; [|apply frame_refl].
    destruct (py_len v); [|apply frame_refl]. cbn [wp_dict]. apply frame_opt. unfold zeros. incl_lists. }
  destruct (py_eqZ ty 18).
  { unfold write18, ix. destruct (dget d (KS "cs_num")) as [v|]; cbn [of_option rbind]; [|apply frame_refl].
    destruct (py_len v); [|apply frame_refl]. cbn [wp_dict]. apply frame_opt. unfold zeros. incl_lists. }
  destruct (py_eqZ ty 55) eqn:E55.
  { replace (wp_dict (write55 d)) with (fst (prep55 d)) by (unfold write55; destruct (prep55 d); reflexivity).
    unfold touched. rewrite E55. apply prep55_frame; [right; left; reflexivity|right; right; left; reflexivity| | |].
    all: unfold base55, real55, cplx55, none; incl_lists. }
  destruct (py_eqZ ty 58) eqn:E58.
  { unfold touched, computed. rewrite E55, E58. unfold write58. destruct (ix d "func_type"); [|apply frame_refl]. destruct (negb _); [apply frame_refl|].
    cbv zeta. apply frame_trans with (opt_fields d defaults58).
    { apply frame_opt, incl_fast. vm_compute. reflexivity. }
    destruct (prepare58_write (opt_fields d defaults58) fd) as [p|] eqn:Ep; cbn [wp_dict]; [rewrite <- (left58_ok _ _ _ Ep)|]; apply left58_frame. }
  destruct (py_eqZ ty 82); [unfold write82; cbn [wp_dict]; apply frame_opt; unfold none; incl_lists|].
  destruct (py_eqZ ty 151); [unfold write151; cbn [wp_dict]; apply frame_opt; incl_lists|].
  destruct (py_eqZ ty 164); [unfold write164; cbn [wp_dict]; apply frame_opt; incl_lists|].
  destruct (py_eqZ ty 1858); [apply frame_refl|].
  destruct (py_eqZ ty 2400); [unfold write2400; cbn [wp_dict]; apply frame_opt; unfold defaults2400; incl_lists|].
  destruct (py_eqZ ty 2411); [apply frame_refl|]. destruct (py_eqZ ty 2412); [apply frame_refl|].
  destruct (py_eqZ ty 2414).
  { unfold write2414; cbn [wp_dict]; apply frame_opt.
    apply incl_fast. vm_compute. reflexivity. }
  destruct (py_eqZ ty 2420); [unfold write2420; cbn [wp_dict]; apply frame_opt; incl_lists|].
  destruct (py_eqZ ty 2429); [unfold write2429; cbn [wp_dict]; apply frame_opt; unfold group_defaults, set_keys, group_keys; incl_lists|].
  destruct (py_eqZ ty 2467); [unfold write2467; cbn [wp_dict]; apply frame_opt; unfold group_defaults, set_keys, group_keys; incl_lists|].
  apply frame_refl.
Qed.

(** No call invents or changes the data of the cleaned dictionary. *)
Lemma data_opt : forall d defs, dget defs (KS "data") = None -> dget (opt_fields d defs) (KS "data") = dget d (KS "data").
Proof. intros d defs H. rewrite opt_fields_get, H. destruct (dget d (KS "data")); reflexivity. Qed.
Lemma data_left58 : forall d fd, dget (left58 d fd) (KS "data") = dget d (KS "data").
Proof.
  intros d fd. unfold left58. repeat match goal with |- context [match ?x with _ => _ end] => destruct x end; rewrite ?dget_dput; reflexivity.
Qed.
Lemma dispatch_data : forall c m fd ty d, dget (wp_dict (write_dispatch c m fd ty d)) (KS "data") = dget d (KS "data").
Proof.
  intros c m fd ty d. unfold write_dispatch. cbv zeta.
  destruct (py_eqZ ty 15); [unfold write15; destruct (rbind _ _); [apply data_opt|]; reflexivity|].
  destruct (py_eqZ ty 18); [unfold write18; destruct (rbind _ _); [apply data_opt|]; reflexivity|].
  destruct (py_eqZ ty 55).
  { replace (wp_dict (write55 d)) with (fst (prep55 d)) by (unfold write55; destruct (prep55 d); reflexivity). rewrite prep55_eq. cbv zeta.
    rewrite <- (data_opt d base55) by reflexivity. generalize (opt_fields d base55). clear d. intro d.
    destruct (ix d "analysis_type"); [|reflexivity]. destruct (py_eqZ a 2); [apply data_opt; reflexivity|].
    destruct (py_eqZ a 3 || py_eqZ a 7)%bool; [|destruct (py_eqZ a 5); reflexivity].
    rewrite <- (data_opt d cplx55) by reflexivity. generalize (opt_fields d cplx55). clear d. intro d.
    destruct (do v <- ix d "modal_a" ;; add_0j v); [|reflexivity].
    destruct (do v <- ix (dput d (KS "modal_a") a0) "modal_b" ;; add_0j v); cbn [fst]; rewrite !dget_dput; reflexivity. }
  destruct (py_eqZ ty 58).
  { unfold write58. destruct (ix d "func_type"); [|reflexivity]. destruct (negb _); [reflexivity|]. cbv zeta.
    rewrite <- (data_opt d defaults58) by reflexivity.
    destruct (prepare58_write (opt_fields d defaults58) fd) as [p|] eqn:Ep; cbn [wp_dict]; [rewrite <- (left58_ok _ _ _ Ep)|]; apply data_left58. }
  destruct (py_eqZ ty 82); [apply data_opt; reflexivity|]. destruct (py_eqZ ty 151); [apply data_opt; reflexivity|].
  destruct (py_eqZ ty 164); [apply data_opt; reflexivity|]. destruct (py_eqZ ty 1858); [reflexivity|].
  destruct (py_eqZ ty 2400); [apply data_opt; reflexivity|]. destruct (py_eqZ ty 2411); [reflexivity|]. destruct (py_eqZ ty 2412); [reflexivity|].
  destruct (py_eqZ ty 2414); [apply data_opt; reflexivity|]. destruct (py_eqZ ty 2420); [apply data_opt; reflexivity|].
  destruct (py_eqZ ty 2429); [apply data_opt; reflexivity|]. destruct (py_eqZ ty 2467); [apply data_opt; reflexivity|]. reflexivity.
Qed.

(** *** Whole calls *)
Definition clean (d : dict) : result dict :=
  match dget d (KS "data") with
  | None => Ok d
  | Some v => do v' <- np_nan_to_num v ;; Ok (dput d (KS "data") v')
  end.
Lemma write_set_dict : forall c m fd file u d, w_dict (write_set c m fd file u d)
  = match dget d (KS "type") with
    | None => d
    | Some ty => match clean d with Err _ => d | Ok d1 => wp_dict (write_dispatch c m fd ty d1) end
    end.
Proof.
  intros c m fd file u d. unfold write_set. destruct (dget d (KS "type")) as [ty|]; [|reflexivity]. fold (clean d).
  destruct (clean d) as [d1|]; [|reflexivity]. destruct (run_items _ _) as [b [e|]]; [reflexivity|].
  destruct (refresh (Some b) u) as [[u' x]|]; reflexivity.
Qed.
Lemma clean_frame : forall t a o d d1, In "data" t -> clean d = Ok d1 -> frame t a o d d1.
Proof.
  intros t a o d d1 Ht H. unfold clean in H. destruct (dget d (KS "data")) eqn:E; [|injection H as <-; apply frame_refl].
  destruct (np_nan_to_num p); [|discriminate]. injection H as <-. apply frame_put; [exact Ht|]. congruence.
Qed.
Lemma ntn_again : forall v v', np_nan_to_num v = Ok v' -> np_nan_to_num v' = Ok v'.
Proof.
  intros v v' H.
  assert (A : forall dt l, np_nan_to_num (VArr dt (map nan_to_num_elt l)) = Ok (VArr dt (map nan_to_num_elt l))).
  { intros dt l. cbn [np_nan_to_num np_asarray rbind fst snd]. rewrite map_map, (map_ext _ _ ntn_idem). reflexivity. }
  assert (B : forall w, (do a <- np_asarray w ;; Ok (VArr (fst a) (map nan_to_num_elt (snd a)))) = Ok v' -> np_nan_to_num v' = Ok v').
  { intros w Hw. destruct (np_asarray w) as [[dt l]|]; [|discriminate]. injection Hw as <-. apply A. }
  destruct v; cbn [np_nan_to_num] in H; try (apply (B _ H)).
  all: injection H as <-; cbn [np_nan_to_num nan_to_num_elt]; rewrite ?ntn1_idem; try reflexivity.
  rewrite map_map. do 2 f_equal. apply map_ext. intro r. rewrite map_map. apply map_ext. apply ntn_idem.
Qed.
Lemma clean_again : forall c m fd ty d d1, clean d = Ok d1 -> clean (wp_dict (write_dispatch c m fd ty d1)) = Ok (wp_dict (write_dispatch c m fd ty d1)).
Proof.
  intros c m fd ty d d1 H. assert (D := dispatch_data c m fd ty d1). set (d' := wp_dict _) in *. unfold clean in *. rewrite D.
  destruct (dget d (KS "data")) as [v|] eqn:E.
  - destruct (np_nan_to_num v) as [v'|] eqn:N; [|discriminate]. injection H as <-. rewrite dget_dput in *. cbn [key_eqb String.eqb Ascii.eqb Bool.eqb] in *.
    rewrite (ntn_again _ _ N). cbn [rbind]. rewrite dput_same by exact D. reflexivity.
  - injection H as <-. rewrite E. reflexivity.
Qed.

(* ------------------------------------------------------------------ *)
(** ** C68 *)
Theorem C68_frame : forall c m fd file u d ty, dget d (KS "type") = Some ty ->
  let d' := w_dict (write_set c m fd file u d) in
  (forall k v, dget d k = Some v -> ~ In k (map KS (touched ty)) -> dget d' k = Some v) /\
  (exists new, map fst d' = map fst d ++ new /\
     forall k, In k new -> dget d k = None /\
       (In k (map KS (computed ty)) \/
        exists v, In (k, v) (documented c (count ty d) ty) /\ (~ In k (map KS (touched ty)) -> dget d' k = Some v))).
Proof.
  intros c m fd file u d ty Ht. cbv zeta.
  assert (F : frame (touched ty) (computed ty) (documented c (count ty d) ty) d (w_dict (write_set c m fd file u d))).
  2: { destruct F as [A B]. split; assumption. }
  rewrite write_set_dict, Ht. destruct (clean d) as [d1|] eqn:Ec; [|apply frame_refl].
  assert (Hc : count ty d = count ty d1).
  { unfold clean in Ec. destruct (dget d (KS "data")); [|injection Ec as <-; reflexivity]. destruct (np_nan_to_num p); [|discriminate].
    injection Ec as <-. unfold count. destruct (py_eqZ ty 15); rewrite dget_dput; reflexivity. }
  rewrite Hc. eapply frame_trans; [apply clean_frame; [left; reflexivity|exact Ec]|]. apply dispatch_frame.
Qed.
Print Assumptions C68_frame.
(** A dictionary without a type is left alone. *)
Theorem C68_no_type : forall c m fd file u d, dget d (KS "type") = None -> w_dict (write_set c m fd file u d) = d.
Proof. intros c m fd file u d H. rewrite write_set_dict, H. reflexivity. Qed.
Print Assumptions C68_no_type.

(** The values put in place of the caller's: cleaned data ... *)
Theorem C68_data : forall c m fd file u d, let d' := w_dict (write_set c m fd file u d) in
  dget d' (KS "data") = dget d (KS "data") \/
  exists v v', dget d (KS "data") = Some v /\ np_nan_to_num v = Ok v' /\ dget d' (KS "data") = Some v'.
Proof.
  intros c m fd file u d. cbv zeta. rewrite write_set_dict. destruct (dget d (KS "type")); [|left; reflexivity].
  unfold clean. destruct (dget d (KS "data")) as [v|] eqn:E.
  - destruct (np_nan_to_num v) as [v'|] eqn:N; cbn [rbind]; [|left; exact E]. right. exists v, v'. do 2 (split; [assumption || reflexivity|]).
    rewrite dispatch_data, dget_dput. reflexivity.
  - left. rewrite dispatch_data. exact E.
Qed.
Print Assumptions C68_data.
(** ... complex modal coefficients ... *)
Definition same_or_complex (v v' : pyval) : Prop :=
  v' = v \/ exists f, fmt_float_arg v = Ok f /\ v' = VCplx (f_add f f_zero) (f_add f_zero f_zero).
Lemma add_0j_spec : forall v a, add_0j v = Ok a -> same_or_complex v a.
Proof.
  intros v a H. unfold add_0j in H. destruct (np_iscomplex v) as [[]|]; cbn [rbind] in H; [injection H as <-; left; reflexivity| |discriminate].
  destruct v; try discriminate; destruct (fmt_float_arg _) eqn:E; try discriminate; injection H as <-; right; eexists; (split; [exact E|reflexivity]).
Qed.
Theorem C68_modal : forall c m fd file u d ty k v, dget d (KS "type") = Some ty -> py_eqZ ty 58 = false -> In k ["modal_a"; "modal_b"] ->
  dget d (KS k) = Some v -> exists v', dget (w_dict (write_set c m fd file u d)) (KS k) = Some v' /\ same_or_complex v v'.
Proof.
  intros c m fd file u d ty k v Ht H58 Hk Hv.
  destruct (py_eqZ ty 55) eqn:E55.
  2: { exists v. split; [|left; reflexivity]. apply (C68_frame c m fd file u d ty Ht); [exact Hv|]. unfold touched. rewrite E55, H58.
       cbn [map In]. destruct Hk as [<-|[<-|[]]]; intuition discriminate. }
  rewrite write_set_dict, Ht. destruct (clean d) as [d1|] eqn:Ec; [|exists v; split; [exact Hv|left; reflexivity]].
  assert (Hv1 : dget d1 (KS k) = Some v).
  { refine (fr_kept _ _ _ _ _ (clean_frame ["data"] [] [] d d1 _ Ec) _ _ Hv _); [left; reflexivity|]. cbn [map In]. destruct Hk as [<-|[<-|[]]]; intuition discriminate. }
  unfold write_dispatch. cbv zeta.
  assert (Opt : forall defs, dget (opt_fields d1 defs) (KS k) = Some v) by (intro; rewrite opt_fields_get, Hv1; reflexivity).
  assert (Fin : forall x, x = Some v -> exists v', x = Some v' /\ same_or_complex v v') by (intros x ->; exists v; split; [reflexivity|left; reflexivity]).
  destruct (py_eqZ ty 15); [unfold write15; destruct (rbind _ _); apply Fin; [apply Opt|exact Hv1]|].
  destruct (py_eqZ ty 18); [unfold write18; destruct (rbind _ _); apply Fin; [apply Opt|exact Hv1]|].
  rewrite E55. replace (wp_dict (write55 d1)) with (fst (prep55 d1)) by (unfold write55; destruct (prep55 d1); reflexivity). rewrite prep55_eq. cbv zeta.
  specialize (Opt base55). revert Opt. generalize (opt_fields d1 base55). clear d1 Ec Hv1. intros d1 Hv1.
  destruct (ix d1 "analysis_type") as [a|]; [|apply Fin, Hv1].
  assert (Opt : forall defs, dget (opt_fields d1 defs) (KS k) = Some v) by (intro; rewrite opt_fields_get, Hv1; reflexivity).
  destruct (py_eqZ a 2); [apply Fin, Opt|]. destruct (py_eqZ a 3 || py_eqZ a 7)%bool; [|destruct (py_eqZ a 5); apply Fin, Hv1].
  specialize (Opt cplx55). revert Opt. generalize (opt_fields d1 cplx55). clear d1 Hv1. intros d1 Hv1.
  destruct Hk as [<-|[<-|[]]].
  - unfold ix at 1. rewrite Hv1. cbn [of_option rbind]. destruct (add_0j v) as [x|] eqn:Ex; [|apply Fin, Hv1].
    destruct (do v0 <- ix (dput d1 (KS "modal_a") x) "modal_b" ;; add_0j v0) as [y|]; cbn [fst]; rewrite !dget_dput; exists x; (split; [reflexivity|apply add_0j_spec, Ex]).
  - destruct (do v0 <- ix d1 "modal_a" ;; add_0j v0) as [x|]; [|apply Fin, Hv1]. unfold ix. rewrite dget_dput.
    cbn [key_eqb String.eqb Ascii.eqb Bool.eqb]. rewrite Hv1. cbn [of_option rbind].
    destruct (add_0j v) as [y|] eqn:Ey; cbn [fst]; rewrite !dget_dput; cbn [key_eqb String.eqb Ascii.eqb Bool.eqb]; [exists y; split; [reflexivity|apply add_0j_spec, Ey]|apply Fin, Hv1].
Qed.
Print Assumptions C68_modal.
(** ... and the computed entries of a function set that was written. *)
Ltac unput := repeat match goal with H : context [ix (dput _ _ _) _] |- _ => rewrite !ix_put in H; cbn [String.eqb Ascii.eqb Bool.eqb] in H end.
Theorem C68_function : forall c m fd file u d, dget d (KS "type") = Some (VInt 58) ->
  let d' := w_dict (write_set c m fd file u d) in w_exc (write_set c m fd file u d) = None ->
  exists data n cplx odt x0 x1,
    dget d' (KS "data") = Some data /\ py_len data = Ok n /\ np_iscomplex data = Ok cplx /\
    dget d' (KS "ord_data_type") = Some odt /\ (odt = if fd then VInt (if cplx then 6 else 4) else match dget d (KS "ord_data_type") with Some v => v | None => VNone end) /\
    at_ (of_option (KeyError "x") (dget d (KS "x"))) 0 = Ok x0 /\ at_ (of_option (KeyError "x") (dget d (KS "x"))) 1 = Ok x1 /\
    dget d' (KS "abscissa_min") = Some x0 /\
    dget d' (KS "n_bytes") = match dget d (KS "n_bytes") with
                             | Some _ => Some (VInt (Z.of_nat n * (if eq_one_of odt [4; 6]%Z then 8 else 4)))
                             | None => None end.
Proof.
  intros c m fd file u d Ht. cbv zeta. intro Hx. rewrite write_set_dict, Ht.
  unfold write_set in Hx. rewrite Ht in Hx. fold (clean d) in Hx.
  destruct (clean d) as [d1|] eqn:Ec; [|discriminate].
  assert (K1 : forall k, k <> KS "data" -> dget d1 k = dget d k).
  { intros k Hk. unfold clean in Ec. destruct (dget d (KS "data")); [|injection Ec as <-; reflexivity]. destruct (np_nan_to_num p); [|discriminate].
    injection Ec as <-. rewrite dget_dput. destruct (key_eqb_spec k (KS "data")); [contradiction|reflexivity]. }
  set (ow := match m with Overwrite => true | Add => false end).
  change (write_dispatch c m fd (VInt 58) d1) with (write58 ow fd d1) in *. clearbody ow. clear Ec.
  set (start := match m with Overwrite => [] | Add => match file with Some b => b | None => [] end end) in *.
  unfold write58 in *. destruct (ix d1 "func_type") as [ft|]; [|cbn in Hx; discriminate].
  destruct (negb _); [cbn in Hx; discriminate|]. cbv zeta in *.
  destruct (prepare58_write (opt_fields d1 defaults58) fd) as [p|] eqn:Ep; [|cbn in Hx; discriminate]. cbn [wp_dict]. clear Hx start.
  assert (K0 : forall k, In k ["ord_data_type"; "n_bytes"; "abscissa_min"; "x"; "data"] -> dget (opt_fields d1 defaults58) (KS k) = dget d1 (KS k)).
  { intros k Hk. rewrite opt_fields_get. destruct (dget d1 (KS k)); [reflexivity|]. repeat (destruct Hk as [<-|Hk]; [reflexivity|]). contradiction Hk. }
  assert (Ko := K0 "ord_data_type" ltac:(cbn; tauto)). assert (Kn := K0 "n_bytes" ltac:(cbn; tauto)). assert (Kx := K0 "x" ltac:(cbn; tauto)).
  rewrite K1 in Ko, Kn, Kx by discriminate. rewrite <- Ko, <- Kn, <- Kx. clear K0 Ko Kn Kx K1.
  revert Ep. generalize (opt_fields d1 defaults58). clear. intros d Ep. fold (ix d "x"). rewrite prepare58_stages in Ep.
  destruct (ix d "data") as [data|] eqn:Ed; [|discriminate]. cbn [rbind] in Ep. destruct (py_len data) as [n|] eqn:En; [|discriminate]. cbn [rbind] in Ep.
  destruct (np_iscomplex data) as [cplx|] eqn:Ecx; [|discriminate]. cbn [rbind] in Ep. unfold stage2 in Ep.
  destruct (ix (forced fd cplx d) "ord_data_type") as [odt|] eqn:Eo; [|discriminate]. cbn [rbind] in Ep.
  assert (F : forall k, k <> "ord_data_type" -> dget (forced fd cplx d) (KS k) = dget d (KS k)).
  { intros k Hk. destruct fd; [|reflexivity]. unfold forced. rewrite dget_dput. destruct (key_eqb_spec (KS k) (KS "ord_data_type")); [congruence|reflexivity]. }
  assert (Hodt : odt = if fd then VInt (if cplx then 6 else 4) else match dget d (KS "ord_data_type") with Some v => v | None => VNone end).
  { destruct fd; unfold forced in Eo; [rewrite ix_put in Eo; cbn in Eo; congruence|]. unfold ix in Eo. destruct (dget d (KS "ord_data_type")); cbn in Eo; congruence. }
  assert (Hd : dget d (KS "data") = Some data) by (unfold ix in Ed; destruct (dget d (KS "data")); cbn in Ed; congruence).
  assert (Ho : dget (forced fd cplx d) (KS "ord_data_type") = Some odt) by (unfold ix in Eo; destruct (dget (forced fd cplx d) (KS "ord_data_type")); cbn in Eo; congruence).
  rewrite <- (F "data") in Hd by discriminate. unfold ix. rewrite <- (F "x") by discriminate. fold (ix (forced fd cplx d) "x"). rewrite <- (F "n_bytes") by discriminate.
  revert Ep Hd Ho. generalize (forced fd cplx d). intros d1 Ep Hd Ho. clear F Ed Eo. unfold dmem in Ep.
  destruct (dget d1 (KS "n_bytes")) eqn:Enb.
  - destruct (eq_one_of odt [4; 6]%Z) eqn:E46; [|destruct (eq_one_of odt [2; 5]%Z); [|discriminate]]; cbn [rbind] in Ep.
    all: rewrite !ix_put in Ep; cbn [String.eqb Ascii.eqb Bool.eqb] in Ep.
    all: repeat step_in Ep; injection Ep as <-; cbn [p_d]; unput.
    all: exists data, n, cplx, odt; do 2 eexists; rewrite !dget_dput; cbn [key_eqb String.eqb Ascii.eqb Bool.eqb].
    all: do 5 (split; [assumption|]); rewrite E46; repeat split; eassumption || reflexivity.
  - cbn [rbind] in Ep. rewrite ?ix_put in Ep; cbn [String.eqb Ascii.eqb Bool.eqb] in Ep. repeat step_in Ep. injection Ep as <-; cbn [p_d]; unput.
    exists data, n, cplx, odt; do 2 eexists; rewrite !dget_dput; cbn [key_eqb String.eqb Ascii.eqb Bool.eqb].
    do 5 (split; [assumption|]); repeat split; eassumption || reflexivity.
Qed.
Print Assumptions C68_function.

(* ------------------------------------------------------------------ *)
(** ** C69: a dictionary that was written, or tried, is written again (to any
    file, in any mode, at any later time) as it was written the first time. *)
Theorem C69_again : forall c c' m m' fd fd' file file' u u' d, (fd' = true -> fd = true) ->
  write_set c' m' fd' file' u' (w_dict (write_set c m fd file u d)) = 
  let s := write_set c m' fd file' u' d in {| w_file := w_file s; w_uff := w_uff s; w_dict := w_dict (write_set c m fd file u d); w_exc := w_exc s |}.
Proof.
  intros c c' m m' fd fd' file file' u u' d Hfd. cbv zeta.
  assert (E : w_dict (write_set c m fd file u d) = w_dict (write_set c m' fd file' u' d)).
  { rewrite !write_set_dict. destruct (dget d (KS "type")); [|reflexivity]. destruct (clean d); [|reflexivity]. apply dict_mode. }
  rewrite E. transitivity (write_set c m' fd file' u' d); [|destruct (write_set c m' fd file' u' d); reflexivity].
  rewrite write_set_dict. destruct (dget d (KS "type")) as [ty|] eqn:Ht.
  2: { unfold write_set. rewrite Ht. reflexivity. }
  destruct (clean d) as [d1|e] eqn:Ec.
  2: { unfold write_set. rewrite Ht. fold (clean d). rewrite Ec. reflexivity. }
  assert (Ht1 : dget (wp_dict (write_dispatch c m' fd ty d1)) (KS "type") = Some ty).
  { refine (fr_kept _ _ _ _ _ (dispatch_frame c m' fd ty d1) _ _ _ _).
    - refine (fr_kept _ _ _ _ _ (clean_frame ["data"] [] [] d d1 _ Ec) _ _ Ht _); [left; reflexivity|]. cbn [map In]. intuition discriminate.
    - unfold touched. destruct (py_eqZ ty 55); [|destruct (py_eqZ ty 58)]; cbn [map In]; intuition discriminate. }
  unfold write_set at 1. rewrite Ht1. fold (clean (wp_dict (write_dispatch c m' fd ty d1))). rewrite (clean_again c m' fd ty d d1 Ec).
  rewrite dispatch_again by exact Hfd. unfold write_set. rewrite Ht. fold (clean d). rewrite Ec. reflexivity.
Qed.
Print Assumptions C69_again.

(** A list of dictionaries in which the same one may occur several times: [l]
    gives the positions in the store [st] of the caller, which every write
    changes in place. *)
Definition at_pos (st : list dict) (i : nat) : dict := nth i st [].
Fixpoint set_nth (i : nat) (d : dict) (st : list dict) : list dict :=
  match st, i with
  | [], _ => []
  | _ :: r, O => d :: r
  | a :: r, S i => a :: set_nth i d r
  end.
Fixpoint write_refs (c : clock) (m : wmode) (fd : bool) (file : option bytes) (u : uff) (st : list dict) (l : list nat)
  : option bytes * uff * option exc :=
  match l with
  | [] => (file, u, None)
  | i :: r =>
      let s := write_set c m fd file u (at_pos st i) in
      match w_exc s with
      | Some e => (w_file s, w_uff s, Some e)
      | None => write_refs c Add fd (w_file s) (w_uff s) (set_nth i (w_dict s) st) r
      end
  end.
Definition as_first (c : clock) (fd : bool) (d d' : dict) : Prop :=
  d' = d \/ exists m file u, d' = w_dict (write_set c m fd file u d).
Lemma as_first_write : forall c m fd file u d d', as_first c fd d d' ->
  let s := write_set c m fd file u d in let s' := write_set c m fd file u d' in
  w_file s' = w_file s /\ w_uff s' = w_uff s /\ w_exc s' = w_exc s /\ as_first c fd d (w_dict s').
Proof.
  intros c m fd file u d d' [->|[m0 [f0 [u0 ->]]]]; cbv zeta.
  - do 3 (split; [reflexivity|]). right. exists m, file, u. reflexivity.
  - rewrite (C69_again c c m0 m fd fd f0 file u0 u d) by auto. cbv zeta. cbn [w_file w_uff w_exc w_dict].
    do 3 (split; [reflexivity|]). right. exists m0, f0, u0. reflexivity.
Qed.
Lemma nth_set : forall st i j d, at_pos (set_nth i d st) j = if andb (Nat.eqb j i) (Nat.ltb i (length st)) then d else at_pos st j.
Proof.
  induction st as [|a r IH]; intros i j d; cbn [set_nth].
  - destruct i; cbn [length set_nth]; rewrite Bool.andb_false_r; reflexivity.
  - destruct i, j; cbn [Nat.eqb andb length set_nth]; try reflexivity. apply IH.
Qed.
Theorem C69_shared : forall c m fd file u st l,
  write_refs c m fd file u st l = write_list c m fd file u (map (fun i => at_pos st i) l).
Proof.
  intros c m fd file u st l.
  assert (G : forall l m file u st', (forall i, as_first c fd (at_pos st i) (at_pos st' i)) ->
    write_refs c m fd file u st' l = write_list c m fd file u (map (fun i => at_pos st i) l)).
  { clear. induction l as [|i l IH]; intros m file u st' H; cbn [write_refs write_list map]; [reflexivity|].
    destruct (as_first_write c m fd file u _ _ (H i)) as [E1 [E2 [E3 E4]]]. cbv zeta in *. rewrite E3, E1, E2.
    destruct (w_exc (write_set c m fd file u (at_pos st i))); [reflexivity|]. apply IH. intro j. rewrite nth_set.
    destruct (Nat.eqb_spec j i); [|apply H]. subst j. destruct (Nat.ltb i (length st')); [exact E4|apply H]. }
  apply G. intro i. left. reflexivity.
Qed.
Print Assumptions C69_shared.

(* ------------------------------------------------------------------ *)
(** ** C70: what an earlier call with [force_double] did stays. *)
Theorem C70_stays : forall c c' m m' file file' u u' d,
  let d' := w_dict (write_set c m true file u d) in
  w_file (write_set c' m' false file' u' d') = w_file (write_set c m' true file' u' d).
Proof. intros c c' m m' file file' u u' d. cbv zeta. rewrite (C69_again c c' m m' true false) by discriminate. reflexivity. Qed.
Print Assumptions C70_stays.
Definition later : clock := {| now_date := lit "31-Dec-25"; now_time := lit "23:59:59" |}.
(** So [force_double = False] no longer stores single precision, and a header
    written later bears the date of the first writing. *)
Theorem C70_refuted :
  (exists d, dget d (KS "ord_data_type") = Some (VInt 2) /\
     w_exc (write_set noclock Add false None uff0 d) = None /\
     w_file (write_set noclock Add false None uff0 (w_dict (write_set noclock Add true None uff0 d)))
     <> w_file (write_set noclock Add false None uff0 d)) /\
  (exists d, dget d (KS "date_file_written") = None /\
     w_exc (write_set later Add true None uff0 d) = None /\
     w_file (write_set later Add true None uff0 (w_dict (write_set noclock Add true None uff0 d)))
     <> w_file (write_set later Add true None uff0 d)).
Proof.
  split.
  - exists d58_even. split; [reflexivity|]. split; [vm_compute; reflexivity|]. intro H.
    assert (E : option_map (@length N) (w_file (write_set noclock Add false None uff0 (w_dict (write_set noclock Add true None uff0 d58_even))))
      = option_map (@length N) (w_file (write_set noclock Add false None uff0 d58_even))) by (rewrite H; reflexivity).
    vm_compute in E. discriminate E.
  - exists d151. split; [reflexivity|]. split; [vm_compute; reflexivity|]. intro H.
    assert (E : match w_file (write_set later Add true None uff0 (w_dict (write_set noclock Add true None uff0 d151))),
                      w_file (write_set later Add true None uff0 d151) with Some a, Some b => leqb a b | _, _ => false end = true).
    { rewrite H. destruct (write_set later Add true None uff0 d151) as [[f|] ? ? ?] eqn:Es; cbn [w_file]; [apply leqb_refl|].
      assert (F : match w_file (write_set later Add true None uff0 d151) with Some _ => true | None => false end = true) by (vm_compute; reflexivity).
      rewrite Es in F. discriminate F. }
    vm_compute in E. discriminate E.
Qed.
Print Assumptions C70_refuted.

(** Witnesses: a function set of single precision gets the defaults, its data
    cleaned, and the first abscissa; the keys it came with stay in front. *)
Example C68_example : let d' := w_dict (write_set noclock Add true None uff0 d58_even) in
  map (dget d') [KS "func_type"; KS "ord_data_type"; KS "abscissa_min"; KS "id4"; KS "n_bytes"]
  = [dget d58_even (KS "func_type"); Some (VInt 4); Some (VInt 5); Some none; None] /\
  firstn (length d58_even) (map fst d') = map fst d58_even.
Proof. split; vm_compute; reflexivity. Qed.
Example C69_example : 
  w_file (write_set later Add false None uff0 (w_dict (write_set noclock Add true None uff0 d58_even)))
  = w_file (write_set noclock Add true None uff0 d58_even) /\ w_exc (write_set noclock Add true None uff0 d58_even) = None.
Proof. split; vm_compute; reflexivity. Qed.
(** The same dictionary twice in a list. *)
Example C69_shared_example : exists f u, write_refs noclock Overwrite true None uff0 [d58_even] [0; 0] = (Some f, u, None) /\ n_sets u = 2.
Proof. eexists _, _. split; vm_compute; reflexivity. Qed.
