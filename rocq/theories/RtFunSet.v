(** Functions at nodal degrees of freedom (data set 58): the header lines, and
    the sets as they are written and read back, as text and in binary form. *)
From Verif Require Import PyBase PyNum PyVal Utf8 Tools DsNodes DsHeaders Ds55 Ds58 Uff Facts IntFacts FloatFacts DecFacts FloatText FloatExact CplxFacts DictFacts
  Scan Container Append ContainerThms Utf8Facts Lines Stored Cells Rows RtNodes RtCs RtHeads RtGroups RtNodal RtFun.
From Coq Require Import Lia.
Open Scope nat_scope.
Open Scope list_scope.

Definition rec6 (r : func58) : list cell :=
  [CI 5 (q_type r); CI 10 (q_id r); CI 5 (q_ver r); CI 10 (q_lc r); CL blank; CS false 10 (q_rsp r); CI 10 (q_rspn r); CI 4 (q_rspd r);
   CL blank; CS false 10 (q_ref r); CI 10 (q_refn r); CI 4 (q_refd r)].
Definition rec7f (r : func58) : list cell :=
  [CI 10 (odt58 r); CI 10 (Z.of_nat (length (q_pts r))); CI 10 (if q_even r then 1 else 0); CE 13 5 (q_min r); CE 13 5 (q_inc r); CE 13 5 (q_zval r)].
Definition axis_cells (a : axis) : list cell :=
  [CI 10 (x_spec a); CI 5 (x_len a); CI 5 (x_force a); CI 5 (x_temp a); CL blank; CS true 20 (x_lab a); CL blank; CS true 20 (x_units a)].
Definition hd58 (r : func58) : list str :=
  map (ljust 80) (q_ids r) ++ map cells_text [rec6 r; rec7f r; axis_cells (q_abs r); axis_cells (q_ord r); axis_cells (q_den r); axis_cells (q_zax r)].
(** The line with the type: for text, and for binary data of [nb] bytes. *)
Definition bin_cells (nb : Z) : list cell :=
  [CI 6 58; CL 98%N; CI 6 1; CI 6 2; CI 12 11; CI 12 nb; CI 6 0; CI 6 0; CI 12 0; CI 12 0].
Definition n_bytes58 (r : func58) : Z := (Z.of_nat (length (q_pts r)) * (if q_dbl r then 8 else 4))%Z.
Definition l0_58 (bin : bool) (r : func58) : str := if bin then cells_text (bin_cells (n_bytes58 r)) else type_hdr 58.

(* ------------------------------------------------------------------ *)
(** ** The header lines *)

Lemma rec6_width : forall r, wf58 r -> Forall width_ok (rec6 r).
Proof.
  intros r W. destruct W as (_ & Wt & Wid & Wver & Wlc & _ & Lr & Wrn & Wrd & _ & Lf & Wfn & Wfd & _).
  assert (Ht : fits 5 (q_type r)) by (cbn in Wt; destruct Wt as [<-|[<-|[<-|[<-|[<-|[<-|[<-|[]]]]]]]]; unfold fits; cbn; lia).
  repeat (constructor; [cbn [width_ok]; first [assumption|exact Logic.I|apply fits_le; [lia|assumption]]|]). constructor.
Qed.
Lemma rec6_ok : forall r, wf58 r -> okline (cells_text (rec6 r)).
Proof.
  intros r W. assert (Hw := rec6_width r W). destruct W as (_ & Wt & Wid & Wver & Wlc & Pr & Lr & Wrn & Wrd & Pf & Lf & Wfn & Wfd & _).
  assert (Hp : plain (cells_text (rec6 r))).
  { apply plain_cells. repeat (constructor; [cbn [plain_cell]; try assumption; try exact Logic.I; try (split; [reflexivity|left; reflexivity])|]). constructor. }
  assert (HL : length (cells_text (rec6 r)) = 80) by (rewrite cells_length by assumption; reflexivity).
  destruct (nonws_last_rjust 10 (dec_Z (q_refn r)) (dec_Z_nonws _)) as (p1 & c1 & E1 & N1).
  destruct (nonws_last_rjust 4 (dec_Z (q_refd r)) (dec_Z_nonws _)) as (p2 & c2 & E2 & N2).
  assert (L2 : length (rjust 4 (dec_Z (q_refd r))) = 4) by (apply rjust_length, fits_le; [lia|exact Wfd]).
  assert (E : exists q, cells_text (rec6 r) = q ++ [c1] ++ p2 ++ [c2]).
  { eexists (cells_text (firstn 10 (rec6 r)) ++ p1). change (rec6 r) with (firstn 10 (rec6 r) ++ [CI 10 (q_refn r); CI 4 (q_refd r)]).
    rewrite cells_text_app. unfold cells_text at 2. cbn [map concat cell_text]. rewrite E1, E2, app_nil_r, <- !app_assoc. reflexivity. }
  destruct E as (q & E). rewrite E2, app_length in L2. cbn [length] in L2.
  split; [apply Hp|]. split; [|apply Hp]. apply tags_line.
  - apply no_lb_str_bytes, Hp.
  - intros (p & H). rewrite E in H. change TAG with ([32] ++ [32; 32; 32; 45; 49])%N in H.
    assert (Hx : (q ++ [c1]) ++ (p2 ++ [c2]) = (p ++ [32%N]) ++ ([32] ++ [32; 32; 45; 49])%N) by (rewrite <- !app_assoc in *; exact H).
    assert (Hl : length (p2 ++ [c2]) = 4) by (rewrite app_length; cbn; lia).
    destruct p2 as [|a [|b [|c [|]]]]; cbn in L2; try lia. cbn [app] in Hx. 
    assert (Hx' : rev ((q ++ [c1]) ++ [a; b; c; c2]) = rev ((p ++ [32%N]) ++ [32; 32; 32; 45; 49]%N)) by (f_equal; exact Hx).
    rewrite !rev_app_distr in Hx'. cbn in Hx'. injection Hx' as _ _ _ _ Hc _. apply N1. exact Hc.
  - destruct (containsb (TAG ++ repeat blank 74) (cells_text (rec6 r))) eqn:C; [|reflexivity]. exfalso.
    apply containsb_iff in C as (a & b & C). assert (Hl := f_equal (@length N) C). rewrite HL, !app_length, repeat_length in Hl. cbn [length TAG lit] in Hl.
    change (length TAG) with 6 in Hl. destruct a; [|cbn in Hl; lia]. destruct b; [|cbn in Hl; lia]. rewrite app_nil_r in C. cbn [app] in C.
    rewrite E in C. change (repeat blank 74) with (repeat blank 73 ++ [blank]) in C. rewrite !app_assoc in C. apply app_inj_tail in C as [_ C]. congruence.
Qed.
Lemma rec7f_ok : forall r, wf58 r -> Forall width_ok (rec7f r) /\ okline (cells_text (rec7f r)).
Proof.
  intros r W. destruct W as (_ & _ & _ & _ & _ & _ & _ & _ & _ & _ & _ & _ & _ & Wn & Wmin & Winc & Wz & _).
  assert (Ho : fits 10 (odt58 r)) by (unfold odt58, fits; destruct (q_cplx r), (q_dbl r); vm_compute; split; reflexivity).
  assert (He : fits 10 (if q_even r then 1 else 0)%Z) by (unfold fits; destruct (q_even r); vm_compute; split; reflexivity).
  assert (Hw : Forall width_ok (rec7f r)) by (repeat (constructor; [cbn [width_ok]; first [apply fmt5_le; assumption|apply fits_le; [lia|assumption]]|]); constructor).
  split; [assumption|]. change (rec7f r) with (firstn 5 (rec7f r) ++ [CE 13 5 (q_zval r)]). apply okline_cells; [|exact Hw|cbn; lia|cbn; lia].
  repeat (constructor; [exact Logic.I|]). constructor.
Qed.
Lemma axis_ok : forall a, wf_axis a -> Forall width_ok (axis_cells a) /\ okline (cells_text (axis_cells a)).
Proof.
  intros a (W1 & W2 & W3 & W4 & P1 & L1 & [P2 T2] & L2).
  assert (Hw : Forall width_ok (axis_cells a)) by (repeat (constructor; [cbn [width_ok]; first [assumption|exact Logic.I|apply fits_le; [lia|assumption]]|]); constructor).
  split; [assumption|]. change (axis_cells a) with (firstn 7 (axis_cells a) ++ [CS true 20 (x_units a)]). apply okline_cells; [|exact Hw|cbn [last_ok]; split; [lia|assumption]|cbn; lia].
  repeat (constructor; [cbn [plain_cell]; try assumption; try exact Logic.I; try (split; [reflexivity|left; reflexivity])|]). constructor.
Qed.
Lemma hd58_ok : forall r, wf58 r -> Forall okline (hd58 r).
Proof.
  intros r W. assert (W' := W). destruct W' as (Wi & _ & _ & _ & _ & _ & _ & _ & _ & _ & _ & _ & _ & _ & _ & _ & _ & Wa & Wo & Wd & Wz & _).
  unfold hd58. apply Forall_app. split; [rewrite Forall_map; eapply Forall_impl; [|exact Wi]; intros s Hs; apply text_ok_line; assumption|].
  cbn [map]. constructor; [apply rec6_ok; assumption|]. constructor; [apply rec7f_ok; assumption|].
  repeat (constructor; [apply axis_ok; assumption|]). constructor.
Qed.
Lemma bin_ok : forall nb, (0 <= nb < 10 ^ 12)%Z -> Forall width_ok (bin_cells nb) /\ okline (cells_text (bin_cells nb)) /\ type_line 58 (cells_text (bin_cells nb)) = true.
Proof.
  intros nb Hn. assert (Hl : length (dec_Z nb) <= 12) by (apply dec_Z_length; lia).
  assert (Hw : Forall width_ok (bin_cells nb)) by (repeat (constructor; [cbn [width_ok]; first [exact Hl|exact Logic.I|vm_compute; lia]|]); constructor).
  split; [assumption|]. split.
  - change (bin_cells nb) with (firstn 9 (bin_cells nb) ++ [CI 12 0]). apply okline_cells; [|exact Hw|cbn; lia|cbn; lia].
    repeat (constructor; [cbn [plain_cell]; try exact Logic.I; try (split; [reflexivity|left; reflexivity])|]). constructor.
  - unfold type_line. change (cells_text (bin_cells nb)) with (cells_text [CI 6 58; CL 98%N; CI 6 1; CI 6 2; CI 12 11] ++ rjust 12 (dec_Z nb) ++ cells_text [CI 6 0; CI 6 0; CI 12 0; CI 12 0]).
    rewrite !forallb_app. apply andb_true_iff. split; [|vm_compute; reflexivity]. apply andb_true_iff. split; [vm_compute; reflexivity|].
    apply andb_true_iff. split; [|vm_compute; reflexivity]. unfold rjust. rewrite forallb_app. rewrite forallb_repeat by reflexivity. cbn [andb].
    eapply forallb_impl; [|apply dec_Z_numch]. intros c Hc. unfold numch in Hc. apply orb_true_iff in Hc as [Hc|Hc].
    + unfold is_digit in Hc. apply andb_true_iff in Hc as [H1 H2]. apply N.leb_le in H1. apply N.leb_le in H2.
      unfold is_lb_bytes. rewrite (proj2 (N.ltb_lt c 128)) by lia. rewrite !(proj2 (N.eqb_neq c _)) by (cbn; lia). reflexivity.
    + apply N.eqb_eq in Hc. subst. reflexivity.
Qed.

(** ** Reading the header *)
Definition axis_out (p : string) (a : axis) : dict :=
  [(KS (p ++ "_spec_data_type"), VInt (x_spec a)); (KS (p ++ "_len_unit_exp"), VInt (x_len a)); (KS (p ++ "_force_unit_exp"), VInt (x_force a));
   (KS (p ++ "_temp_unit_exp"), VInt (x_temp a)); (KS (p ++ "_axis_lab"), VStr (strip (x_lab a))); (KS (p ++ "_axis_units_lab"), VStr (strip (x_units a)))].
Definition rec6_out (r : func58) : dict :=
  [(KS "func_type", VInt (q_type r)); (KS "func_id", VInt (q_id r)); (KS "ver_num", VInt (q_ver r)); (KS "load_case_id", VInt (q_lc r));
   (KS "rsp_ent_name", VStr (strip (q_rsp r))); (KS "rsp_node", VInt (q_rspn r)); (KS "rsp_dir", VInt (q_rspd r));
   (KS "ref_ent_name", VStr (strip (q_ref r))); (KS "ref_node", VInt (q_refn r)); (KS "ref_dir", VInt (q_refd r))].
Definition head_out (r : func58) : dict :=
  combine (map KS id_keys) (map (fun s => VStr (strip (firstn 80 s))) (q_ids r)) ++ rec6_out r ++
  [(KS "ord_data_type", VInt (odt58 r)); (KS "num_pts", VInt (Z.of_nat (length (q_pts r)))); (KS "abscissa_spacing", even_val (q_even r));
   (KS "abscissa_min", VFloat (rd 5 (q_min r))); (KS "abscissa_inc", VFloat (rd 5 (q_inc r))); (KS "z_axis_value", VFloat (rd 5 (q_zval r)))] ++
  axis_out "abscissa" (q_abs r) ++ axis_out "ordinate" (q_ord r) ++ axis_out "orddenom" (q_den r) ++ axis_out "z_axis" (q_zax r).

Lemma strip_blank : forall s, strip (blank :: s) = strip s.
Proof. intro s. reflexivity. Qed.
Lemma fv_strl' : forall w s, field_val 1 (strip (blank :: ljust w s)) = Ok (Some (VStr (strip s))).
Proof. intros w s. rewrite strip_blank. apply fv_strl. Qed.
Lemma fv_strr' : forall w s, field_val 1 (strip (blank :: rjust w s)) = Ok (Some (VStr (strip s))).
Proof. intros w s. rewrite strip_blank. apply fv_strr. Qed.
Ltac hdr_vals' := repeat (constructor; [cbn [fst snd]; first [apply fv_int|apply fv_flt|apply fv_strl'|apply fv_strr'|apply fv_none]|]); constructor.

Lemma rec6_read : forall r, wf58 r -> 
  parse_header_line (cells_text (rec6 r) ++ [LF]) 1 [5;10;5;10;11;10;4;11;10;4]%nat [2;2;2;2;1;2;2;1;2;2]%Z
      ["func_type"; "func_id"; "ver_num"; "load_case_id"; "rsp_ent_name"; "rsp_node"; "rsp_dir"; "ref_ent_name"; "ref_node"; "ref_dir"]%string =
  Ok (rec6_out r).
Proof.
  intros r W. assert (Hw := rec6_width r W).
  rewrite (header_segs [rjust 5 (dec_Z (q_type r)); rjust 10 (dec_Z (q_id r)); rjust 5 (dec_Z (q_ver r)); rjust 10 (dec_Z (q_lc r)); blank :: rjust 10 (q_rsp r);
     rjust 10 (dec_Z (q_rspn r)); rjust 4 (dec_Z (q_rspd r)); blank :: rjust 10 (q_ref r); rjust 10 (dec_Z (q_refn r)); rjust 4 (dec_Z (q_refd r))] [LF] _ _ _ [])
    with (vals := [Some (VInt (q_type r)); Some (VInt (q_id r)); Some (VInt (q_ver r)); Some (VInt (q_lc r)); Some (VStr (strip (q_rsp r))); Some (VInt (q_rspn r)); Some (VInt (q_rspd r));
      Some (VStr (strip (q_ref r))); Some (VInt (q_refn r)); Some (VInt (q_refd r))]); try reflexivity.
  - unfold rec6 in Hw. repeat match goal with H : Forall width_ok (_ :: _) |- _ => inversion H; clear H; subst end. cbn [width_ok] in *. cbn [map length app].
    rewrite !rjust_length by assumption. reflexivity.
  - cbn; lia.
  - hdr_vals'.
Qed.
Lemma axis_read : forall a p, wf_axis a -> 
  parse_header_line (cells_text (axis_cells a) ++ [LF]) 4 [10;5;5;5;21;21]%nat [2;2;2;2;1;1]%Z 
    (map (fun s => p ++ s)%string ["_spec_data_type"; "_len_unit_exp"; "_force_unit_exp"; "_temp_unit_exp"; "_axis_lab"; "_axis_units_lab"]%string) = Ok (put_all [] (map (fun kv => (match fst kv with KS s => s | _ => EmptyString end, Some (snd kv))) (axis_out p a))).
Proof.
  intros a p W. destruct (axis_ok a W) as [Hw _].
  rewrite (header_segs [rjust 10 (dec_Z (x_spec a)); rjust 5 (dec_Z (x_len a)); rjust 5 (dec_Z (x_force a)); rjust 5 (dec_Z (x_temp a)); blank :: ljust 20 (x_lab a); blank :: ljust 20 (x_units a)] [LF] _ _ _ [])
    with (vals := [Some (VInt (x_spec a)); Some (VInt (x_len a)); Some (VInt (x_force a)); Some (VInt (x_temp a)); Some (VStr (strip (x_lab a))); Some (VStr (strip (x_units a)))]); try reflexivity.
  - unfold axis_cells in Hw. repeat match goal with H : Forall width_ok (_ :: _) |- _ => inversion H; clear H; subst end. cbn [width_ok] in *. cbn [map length app].
    rewrite !rjust_length, !ljust_length by assumption. reflexivity.
  - cbn; lia.
  - hdr_vals'.
Qed.

Lemma head_read : forall r l0 d, wf58 r -> length (q_ids r) = 5 ->
  header_recs (map (fun l => l ++ [LF]) (TAG :: l0 :: hd58 r)) d recs58 = Ok (dupdate d (head_out r)).
Proof.
  intros r l0 d W Hi. assert (W' := W). destruct W' as (_ & _ & _ & _ & _ & _ & _ & _ & _ & _ & _ & _ & _ & _ & _ & _ & _ & Wa & Wo & Wd & Wz & _).
  destruct (rec7f_ok r W) as [W7 _].
  destruct (q_ids r) as [|s1 [|s2 [|s3 [|s4 [|s5 [|]]]]]] eqn:Ei; try discriminate.
  unfold hd58, head_out. rewrite Ei. cbn [map app]. unfold recs58, axis_rec, H.
  cbn [header_recs h_line h_min h_widths h_types h_names]. cbn [ln nth_error of_option rbind]. rewrite !header_str80. cbn [rbind].
  rewrite rec6_read by assumption. cbn [rbind].
  hdr_cells (rec7f r) (@nil nat) [Some (VInt (odt58 r)); Some (VInt (Z.of_nat (length (q_pts r)))); Some (even_val (q_even r)); Some (VFloat (rd 5 (q_min r))); Some (VFloat (rd 5 (q_inc r))); Some (VFloat (rd 5 (q_zval r)))] W7.
  rewrite !axis_read by assumption. cbn [rbind]. reflexivity.
Qed.

(* ------------------------------------------------------------------ *)
(** ** The lines of the block as bytes *)

Lemma enc_no_lb : forall s b, utf8_enc s = Some b -> no_lb is_lb_str s = true -> no_lb is_lb_bytes b = true.
Proof.
  induction s as [|c s IH]; intros b H Hn; [injection H as <-; reflexivity|]. apply utf8_enc_cons in H as (b1 & b2 & H1 & H2 & ->).
  unfold no_lb in *. cbn [forallb] in Hn. apply andb_true_iff in Hn as [Hc Hn]. rewrite forallb_app. rewrite (IH b2 H2 Hn), andb_true_r.
  destruct (enc1_shape c b1 H1) as [[Hl ->]|[_ [_ Hf]]].
  - cbn [forallb]. rewrite andb_true_r. assert (E := no_lb_str_bytes [c]). unfold no_lb in E. cbn [forallb] in E. rewrite !andb_true_r in E. apply E. assumption.
  - apply forallb_forall. intros x Hx. rewrite Forall_forall in Hf. apply Hf in Hx. unfold is_lb_bytes. rewrite !(proj2 (N.eqb_neq x _)) by (cbn; lia). reflexivity.
Qed.
Lemma blines_head : forall ls hb rest, Forall (fun l => no_lb is_lb_str l = true) ls -> utf8_enc (unlines ls) = Some hb ->
  join (firstn (length ls) (splitlines_bytes true (hb ++ rest))) = hb /\ join (skipn (length ls) (splitlines_bytes true (hb ++ rest))) = rest.
Proof.
  unfold join. induction ls as [|l ls IH]; intros hb rest H He.
  - injection He as <-. split; [reflexivity|]. apply splitlines_join.
  - inversion H as [|? ? Hl Hls]; subst. rewrite unlines_cons' in He. rewrite !utf8_enc_app in He.
    destruct (utf8_enc l) as [bl|] eqn:El; [|discriminate]. destruct (utf8_enc (unlines ls)) as [bs|] eqn:Es; [|discriminate]. injection He as <-.
    destruct (IH bs rest Hls eq_refl) as [I1 I2].
    assert (E : splitlines_bytes true ((bl ++ [LF]) ++ bs ++ rest) = (bl ++ [LF]) :: splitlines_bytes true (bs ++ rest)).
    { rewrite <- app_assoc. apply (splitlines_line is_lb_bytes true bl (bs ++ rest)); [reflexivity|]. eapply enc_no_lb; eassumption. }
    change [10%N] with [LF]. rewrite <- (app_assoc (bl ++ [LF])), E. cbn [length firstn skipn concat].
    rewrite I1, I2. split; reflexivity.
Qed.

Definition base58 (bin : bool) (r : func58) : dict :=
  [(KS "type", VInt 58); (KS "binary", VInt (if bin then 1 else 0))] ++
  (if bin then [(KS "byte_ordering", VInt 1); (KS "fp_format", VInt 2); (KS "n_ascii_lines", VInt 11); (KS "n_bytes", VInt (n_bytes58 r))] else []) ++ head_out r.

Lemma blines_head' : forall (ls : list str) n hb rest, length ls = n -> Forall (fun l => no_lb is_lb_str l = true) ls -> utf8_enc (unlines ls) = Some hb ->
  join (firstn n (splitlines_bytes true (hb ++ rest))) = hb /\ join (skipn n (splitlines_bytes true (hb ++ rest))) = rest.
Proof. intros ls n hb rest <-. apply blines_head. Qed.
Lemma n_bytes_pos : forall r, (0 <= n_bytes58 r)%Z.
Proof. intro r. unfold n_bytes58. destruct (q_dbl r); lia. Qed.
Lemma extract_head : forall bin r hb rest ho, wf58 r -> length (q_ids r) = 5 -> (bin = true -> (n_bytes58 r < 10 ^ 12)%Z) ->
  utf8_enc (unlines (TAG :: l0_58 bin r :: hd58 r)) = Some hb ->
  extract58 (hb ++ rest) ho = try_any
    (if ho then Ok (dupdate (base58 bin r) [(KS "x", VNone); (KS "data", VNone)])
     else do values <- (if bin then binary_values (base58 bin r) rest
                        else ascii_values (base58 bin r) (skipn 13 (splitlines_str true (utf8_decode (hb ++ rest))))) ;;
          assemble58 (base58 bin r) values) (PyException "Error reading data-set #58b").
Proof.
  intros bin r hb rest ho W Hi Hb He.
  assert (H0 : okline (l0_58 bin r)).
  { unfold l0_58. destruct bin; [exact (proj1 (proj2 (bin_ok _ (conj (n_bytes_pos r) (Hb eq_refl)))))|exact (proj2 (type_hdr_ok 58 ltac:(lia)))]. }
  assert (Hok : Forall okline (l0_58 bin r :: hd58 r)) by (constructor; [assumption|apply hd58_ok; assumption]).
  assert (Hlen : length (TAG :: l0_58 bin r :: hd58 r) = 13) by (unfold hd58; cbn [length]; rewrite app_length, !map_length, Hi; reflexivity).
  destruct (blines_head' (TAG :: l0_58 bin r :: hd58 r) 13 hb rest Hlen) as [B1 B2]; [|assumption|].
  { constructor; [reflexivity|]. eapply Forall_impl; [|exact Hok]. intros l Hl. apply Hl. }
  unfold extract58. cbv zeta. rewrite B1, B2.
  assert (Ed : utf8_decode hb = unlines (TAG :: l0_58 bin r :: hd58 r)).
  { rewrite <- (app_nil_r hb). rewrite (decode_encode _ _ [] He). cbn [utf8_decode]. apply app_nil_r. }
  rewrite Ed. rewrite split_text by assumption.
  change ((TAG ++ [LF]) :: map (fun l : list N => l ++ [LF]) (l0_58 bin r :: hd58 r)) with (map (fun l : str => l ++ [LF]) (TAG :: l0_58 bin r :: hd58 r)).
  change (ln (map (fun l : str => l ++ [LF]) (TAG :: l0_58 bin r :: hd58 r)) 1) with (@Ok str (l0_58 bin r ++ [LF])). cbn [rbind].
  assert (Eb : match nth_error (l0_58 bin r ++ [LF]) 6 with Some c => (lower_char c =? 98)%N | None => false end = bin).
  { destruct bin; [|reflexivity]. reflexivity. }
  rewrite Eb. f_equal.
  set (ls := map (fun l : str => l ++ [LF]) (TAG :: l0_58 bin r :: hd58 r)).
  assert (Er : (do d1 <- header_recs ls [(KS "type", VInt 58); (KS "binary", VInt (if bin then 1 else 0))] (if bin then [rec58b] else []);; header_recs ls d1 recs58) = Ok (base58 bin r)).
  { destruct bin.
    - destruct (bin_ok (n_bytes58 r)) as [Hw _]. { split; [apply n_bytes_pos|exact (Hb eq_refl)]. }
      unfold rec58b, H. cbn [header_recs h_line h_min h_widths h_types h_names]. unfold ls at 1. cbn [map ln nth_error of_option rbind l0_58].
      hdr_cells (bin_cells (n_bytes58 r)) (@nil nat) [None; None; Some (VInt 1); Some (VInt 2); Some (VInt 11); Some (VInt (n_bytes58 r)); None; None; None; None] Hw.
      unfold ls. rewrite head_read by assumption. unfold base58, head_out. destruct (q_ids r) as [|s1 [|s2 [|s3 [|s4 [|s5 [|]]]]]]; try discriminate. reflexivity.
    - cbn [header_recs rbind]. unfold ls. rewrite head_read by assumption. unfold base58, head_out.
      destruct (q_ids r) as [|s1 [|s2 [|s3 [|s4 [|s5 [|]]]]]]; try discriminate. reflexivity. }
  destruct (header_recs ls _ _) as [d1|]; [|discriminate]. cbn [rbind] in *. rewrite Er. cbn [rbind]. reflexivity.
Qed.

(* ------------------------------------------------------------------ *)
(** ** Writing *)

Lemma has_view58 : forall A (P : pyval -> A -> Prop) d d1 k a,
  (forall k, is_set58 k = false -> dget d1 k = match dget d k with Some v => Some v | None => dget defaults58 k end) -> is_set58 (KS k) = false ->
  has P d k a -> has P d1 k a.
Proof. intros A P d d1 k a G Hk (v & Hv & Hp). exists v. split; [|assumption]. rewrite G, Hv by assumption. reflexivity. Qed.
Lemma has_view58_or : forall A (P : pyval -> A -> Prop) d d1 k a dflt v,
  (forall k, is_set58 k = false -> dget d1 k = match dget d k with Some v => Some v | None => dget defaults58 k end) -> is_set58 (KS k) = false ->
  has_or P d k a dflt -> dget defaults58 (KS k) = Some v -> P v dflt -> has P d1 k a.
Proof.
  intros A P d d1 k a dflt v G Hk [H|[H ->]] Hv Hp; [eapply has_view58; eassumption|]. exists v. split; [|assumption]. rewrite G, H by assumption. assumption.
Qed.
Ltac view58 G := first [eapply has_view58; [exact G|reflexivity|eassumption] | eapply has_view58_or; [exact G|reflexivity|eassumption|reflexivity|reflexivity]].
Lemma axis_writes : forall d d1 p a rest t,
  (forall k, is_set58 k = false -> dget d1 k = match dget d k with Some v => Some v | None => dget defaults58 k end) ->
  In p ["abscissa"; "ordinate"; "orddenom"; "z_axis"]%string ->
  has as_int d1 (p ++ "_spec_data_type") (x_spec a) -> repr_axis d p a -> writes rest t ->
  writes (axis_line d1 p :: rest) ((cells_text (axis_cells a) ++ [LF]) ++ t).
Proof.
  intros d d1 p a rest t G Hp Hs (R1 & R2 & R3 & R4 & R5) Hr. unfold axis_line. apply (writes_line _ _ (axis_cells a)); [reflexivity| |exact Hr].
  cbn [axis_cells cells_args app].
  cbn [In] in Hp. destruct Hp as [<-|[<-|[<-|[<-|[]]]]];
    (split; [apply has_gi; exact Hs|]; split; [apply has_gi; view58 G|]; split; [apply has_gi; view58 G|]; split; [apply has_gi; view58 G|];
     split; [apply has_gs; view58 G|]; split; [apply has_gs; view58 G|exact Logic.I]).
Qed.

Definition tail58 (m : wmode) (bin : bool) (r : func58) : list item :=
  let vals := flat_map (p_vals (q_cplx r) (q_even r)) (q_pts r) in
  let trunc := match m with Overwrite => [WTrunc] | Add => [] end in
  if bin then trunc ++ map (fun f => WRaw (pack_d f)) vals ++ trunc else ascii58 (q_dbl r) (negb (q_cplx r)) (q_even r) vals.
Lemma write58_items : forall c m fd bin d r, repr58 fd bin d r -> wf58 r ->
  exists T, set_items c m fd d = T ++ tail58 m bin r ++ [end_line] /\ writes T (unlines (TAG :: l0_58 bin r :: hd58 r)).
Proof.
  intros c m fd bin d r R W. destruct (prep58_ok fd bin d r R W) as (v & v' & p & Hv & En & Ep & En' & Er & Ed & Enb & Ee & G & Godt & Gmin & Ginc & Epay).
  destruct R as (Rty & Rid & Rft & Rfi & Rver & Rlc & Rrsp & Rrn & Rrd & Rref & Rfn & Rfd & _ & _ & Rz & Rbin & Rs1 & Rs2 & Rs3 & Rs4 & Ra1 & Ra2 & Ra3 & Ra4 & _).
  unfold set_items. rewrite Rty, Hv, En. cbn [rbind].
  change (write_dispatch c m fd (VInt 58) (dput d (KS "data") v')) with (write58 (match m with Overwrite => true | Add => false end) fd (dput d (KS "data") v')).
  unfold write58.
  assert (Hft : exists ft, ix (dput d (KS "data") v') "func_type" = Ok ft /\ is_num ft (q_type r)).
  { destruct Rft as (ft & Hft & Hn). exists ft. split; [|assumption]. unfold ix. rewrite dget_dput. change (key_eqb (KS "func_type") (KS "data")) with false. cbn iota. rewrite Hft. reflexivity. }
  destruct Hft as (ft & Hft & Hn). rewrite Hft. rewrite (eq_one_num _ _ _ Hn).
  assert (Eft : existsb (fun k => (q_type r =? k)%Z) [0; 1; 2; 3; 4; 6; 9]%Z = true).
  { apply existsb_exists. exists (q_type r). split; [apply W|apply Z.eqb_refl]. }
  rewrite Eft. cbn [negb]. rewrite Ep. cbn [wp_items].
  assert (Eb : (do v0 <- ix (p_d p) "binary";; truthy v0) = Ok bin).
  { assert (Hb : has as_truth (p_d p) "binary" bin) by view58 G. apply has_get in Hb as (vb & -> & Hb). exact Hb. }
  rewrite Eb. rewrite En', Er, Ee, Ed, Epay.
  exists (txt "%6i\n%6i" [I (-1); I 58] ::
          (if bin then txt "b%6i%6i%12i%12i%6i%6i%12i%12i\n" [I 1; I 2; I 11; (do b <- p_nb p ;; Ok (VInt b)); I 0; I 0; I 0; I 0] else txt "%74s\n" [Sv " "]) :: header58 p).
  split.
  - cbn [app]. f_equal. f_equal. unfold tail58. destruct bin, m; cbn [app]; rewrite ?app_nil_r, <- ?app_assoc; reflexivity.
  - change (unlines (TAG :: l0_58 bin r :: hd58 r)) with (TLINE ++ unlines (l0_58 bin r :: hd58 r)). rewrite (unlines_cons' (l0_58 bin r)). unfold hd58.
    rewrite unlines_app. cbn [map]. rewrite !unlines_cons'.
    eapply writes_eq.
    { apply writes_consr; [reflexivity|].
      assert (E2 : (if bin then txt "b%6i%6i%12i%12i%6i%6i%12i%12i\n" [I 1; I 2; I 11; (do b <- p_nb p ;; Ok (VInt b)); I 0; I 0; I 0; I 0] else txt "%74s\n" [Sv " "])
        = WTxt (Ok (if bin then cells_text (skipn 1 (bin_cells (n_bytes58 r))) ++ [LF] else rjust 74 (lit " ") ++ [LF]))).
      { destruct bin; [|reflexivity]. unfold txt. f_equal. apply pct_line; [reflexivity|]. cbn [skipn bin_cells cells_args app]. rewrite Enb. repeat split. }
      rewrite E2. apply writes_consr; [reflexivity|].
        unfold header58. apply (ids_writes (p_d p) id_keys (q_ids r)).
        { apply forall2_5 in Rid as (v1 & w & x & y & z & -> & P1 & P2 & P3 & P4 & P5). repeat constructor; view58 G. }
        apply (writes_line _ _ (rec6 r)); [reflexivity| |].
        { cbn [rec6 map cells_args app]. split; [apply has_gi; apply (has_view58 _ _ _ _ _ _ G) in Rft as (vf & E & Hf & _); [exists vf; auto|reflexivity]|].
          repeat (split; [first [apply has_gi; view58 G|apply has_gs; view58 G]|]). exact Logic.I. }
        apply (writes_line _ _ (rec7f r)); [reflexivity| |].
        { cbn [rec7f cells_args app]. rewrite En', Ee. split; [exact Godt|]. split; [reflexivity|]. split; [destruct (q_even r); reflexivity|].
          split; [exact Gmin|]. split; [exact Ginc|]. split; [apply has_gf; view58 G|exact Logic.I]. }
        apply (axis_writes d); [exact G|cbn; auto|view58 G|assumption|].
        apply (axis_writes d); [exact G|cbn; auto|view58 G|assumption|].
        apply (axis_writes d); [exact G|cbn; auto|view58 G|assumption|].
        apply (axis_writes d); [exact G|cbn; auto|view58 G|assumption|]. constructor. }
    destruct bin; cbn [l0_58].
    + change (cells_text (bin_cells (n_bytes58 r))) with (lit "    58" ++ cells_text (skipn 1 (bin_cells (n_bytes58 r)))). unfold TLINE. rewrite <- !app_assoc. reflexivity.
    + unfold type_hdr, TLINE. rewrite <- !app_assoc. reflexivity.
Qed.

(* ------------------------------------------------------------------ *)
(** ** As text *)

Definition read58 (bin ho : bool) (r : func58) : dict :=
  let pts := map (if bin then npt else rpt (q_dbl r)) (q_pts r) in
  base58 bin r ++ if ho then [(KS "x", VNone); (KS "data", VNone)]
                  else [(KS "x", x_out (q_even r) (rd 5 (q_min r)) (rd 5 (q_inc r)) pts); (KS "data", y_out (q_cplx r) pts)].
Definition lines58 (r : func58) : list str := hd58 r ++ data_lines (q_cplx r) (q_even r) (q_dbl r) (q_pts r).

Lemma repr58_ids : forall fd bin d r, repr58 fd bin d r -> length (q_ids r) = 5.
Proof. intros fd bin d r (_ & R & _). apply Forall2_len in R. symmetry. exact R. Qed.
Lemma repr58_pts : forall fd bin d r, repr58 fd bin d r -> q_pts r <> [].
Proof.
  intros fd bin d r R. destruct R as (_ & _ & _ & _ & _ & _ & _ & _ & _ & _ & _ & _ & _ & _ & _ & _ & _ & _ & _ & _ & _ & _ & _ & _ & (v & _ & A) & _).
  intro E. rewrite E in A. destruct A as [(x0 & x1 & rest & _ & A & _)|(z0 & z1 & rest & _ & A & _)]; discriminate.
Qed.
Lemma base_end : forall bin r v w, length (q_ids r) = 5 -> dupdate (base58 bin r) [(KS "x", v); (KS "data", w)] = base58 bin r ++ [(KS "x", v); (KS "data", w)].
Proof. intros bin r v w Hi. unfold base58, head_out. destruct (q_ids r) as [|s1 [|s2 [|s3 [|s4 [|s5 [|]]]]]]; try discriminate. destruct bin; reflexivity. Qed.
Lemma base_ix : forall bin r, length (q_ids r) = 5 -> ix (base58 bin r) "ord_data_type" = Ok (VInt (odt_of (q_cplx r) (q_dbl r))) /\
  ix (base58 bin r) "abscissa_spacing" = Ok (even_val (q_even r)) /\ ix (base58 bin r) "abscissa_min" = Ok (VFloat (rd 5 (q_min r))) /\
  ix (base58 bin r) "abscissa_inc" = Ok (VFloat (rd 5 (q_inc r))).
Proof.
  intros bin r Hi. unfold base58, head_out. destruct (q_ids r) as [|s1 [|s2 [|s3 [|s4 [|s5 [|]]]]]]; try discriminate. unfold odt58.
  destruct bin; repeat split.
Qed.
Lemma rpt_ok : forall dbl p, okpt p -> f_finite (fst (snd (rpt dbl p))) = true /\ okfin (snd (snd (rpt dbl p))).
Proof.
  intros dbl p (_ & H2 & H3). apply ntn_ok in H2 as [V2 F2]. apply ntn_ok in H3 as [V3 F3]. unfold rpt. cbn [fst snd].
  destruct dbl; (split; [apply rd_finite|split; [apply rd_valid|apply rd_finite]]); try assumption; try exact short5; exact short11.
Qed.
Lemma wf58_pts : forall r, wf58 r -> Forall okpt (q_pts r).
Proof. intros r W. apply W. Qed.

Lemma set58 : forall c m fd ho d r, repr58 fd false d r -> wf58 r ->
  text_set c m fd ho d 58 (type_hdr 58) (lines58 r) (read58 false ho r).
Proof.
  intros c m fd ho d r R W. destruct (type_hdr_ok 58 ltac:(lia)) as [Ht Hh]. assert (Hi := repr58_ids _ _ _ _ R). assert (Hp := wf58_pts r W).
  assert (Hh58 := hd58_ok r W). assert (Hdl := data_lines_ok (q_cplx r) (q_even r) (q_dbl r) (q_pts r) Hp).
  assert (Hok : Forall okline (type_hdr 58 :: lines58 r)) by (constructor; [assumption|]; apply Forall_app; split; assumption).
  constructor; [|assumption|assumption|].
  - destruct (write58_items c m fd false d r R W) as (T & -> & HT). cbn [tail58 l0_58] in *. eapply writes_eq.
    { apply writes_app; [exact HT|]. apply ascii_writes. exact end_writes. }
    change (unlines (TAG :: type_hdr 58 :: hd58 r)) with (TLINE ++ unlines (type_hdr 58 :: hd58 r)). unfold lines58.
    rewrite !unlines_cons', unlines_app. rewrite <- !app_assoc. reflexivity.
  - intros block He Hd. unfold extract_set. cbn [Z.eqb Pos.eqb].
    assert (Hs : unlines (TAG :: type_hdr 58 :: lines58 r) = unlines (TAG :: type_hdr 58 :: hd58 r) ++ unlines (data_lines (q_cplx r) (q_even r) (q_dbl r) (q_pts r))).
    { unfold lines58. rewrite <- unlines_app. reflexivity. }
    rewrite Hs, utf8_enc_app in He. destruct (utf8_enc (unlines (TAG :: type_hdr 58 :: hd58 r))) as [hb|] eqn:Eh; [|discriminate].
    destruct (utf8_enc (unlines (data_lines _ _ _ _))) as [rest|]; [|discriminate]. injection He as <-.
    rewrite (extract_head false r hb rest ho W Hi) by (discriminate || exact Eh). rewrite Hd, split_text by assumption.
    unfold read58. destruct ho; [rewrite base_end by assumption; reflexivity|].
    assert (Esk : skipn 13 ((TAG ++ [LF]) :: map (fun l : list N => l ++ [LF]) (type_hdr 58 :: lines58 r)) = map (fun l => l ++ [LF]) (data_lines (q_cplx r) (q_even r) (q_dbl r) (q_pts r))).
    { unfold lines58, hd58. destruct (q_ids r) as [|s1 [|s2 [|s3 [|s4 [|s5 [|]]]]]]; try discriminate. reflexivity. }
    destruct (base_ix false r Hi) as (I1 & I2 & I3 & I4).
    assert (Ea := ascii_read (q_cplx r) (q_even r) (q_dbl r) (base58 false r) (q_pts r) I1 I2 (repr58_pts _ _ _ _ R) Hp). rewrite <- Esk in Ea.
    match goal with |- context [ascii_values ?dd ?t] => replace (ascii_values dd t) with (Ok (flat_map (p_read (q_cplx r) (q_even r) (q_dbl r)) (q_pts r))) by (symmetry; exact Ea) end.
    cbn [rbind].
    rewrite p_read_raw. rewrite (assemble_ok (q_cplx r) (q_even r) (q_dbl r) _ _ _ _ I1 I2 I3 I4).
    + rewrite base_end by assumption. reflexivity.
    + rewrite Forall_map. eapply Forall_impl; [|exact Hp]. intros p. apply rpt_ok.
Qed.

(* ------------------------------------------------------------------ *)
(** ** In binary form *)

Definition payload (r : func58) : bytes := concat (map pack_d (flat_map (p_vals (q_cplx r) (q_even r)) (q_pts r))).
(** The data contain no delimiter, also not together with the closing line. *)
Definition no_delim (b : bytes) : Prop := forall i, i < length b -> ~ delim_at (b ++ TLINE) i.

Lemma run_raw : forall l rest start, run_items start (map (fun f => WRaw (pack_d f)) l ++ rest) = run_items (start ++ concat (map pack_d l)) rest.
Proof.
  induction l as [|f l IH]; intros rest start; cbn [map app concat run_items]; [rewrite app_nil_r; reflexivity|]. rewrite IH, <- app_assoc. reflexivity.
Qed.
Lemma run_writes : forall T t b rest start, writes T t -> utf8_enc t = Some b -> run_items start (T ++ rest) = run_items (start ++ b) rest.
Proof.
  intros T t b rest start H. revert b start. induction H as [|s l t _ IH]; intros b start Hb.
  - injection Hb as <-. rewrite app_nil_r. reflexivity.
  - rewrite utf8_enc_app in Hb. destruct (utf8_enc s) as [b1|] eqn:E; [|discriminate]. destruct (utf8_enc t) as [b2|] eqn:E2; [|discriminate].
    injection Hb as <-. cbn [app run_items]. unfold utf8_encode. rewrite E. cbn [of_option]. rewrite (IH b2 _ eq_refl), app_assoc. reflexivity.
Qed.
Lemma pack_d_length : forall f, length (pack_d f) = 8.
Proof. intro f. reflexivity. Qed.
Lemma unpack_payload : forall l, Forall (fun f => f_valid f = true) l ->
  unpack_all (fun b => unpack_d b) 8 (length (concat (map pack_d l)) / 8) (concat (map pack_d l)) = l.
Proof.
  intros l H. assert (E : length (concat (map pack_d l)) = length l * 8).
  { clear H. induction l as [|f l IH]; [reflexivity|]. cbn [map concat length]. rewrite app_length, IH, pack_d_length. lia. }
  rewrite E, Nat.div_mul by lia. clear E. induction H as [|f l Hf _ IH]; [reflexivity|]. cbn [length map concat unpack_all].
  rewrite firstn_app_exact, skipn_app_exact by apply pack_d_length. rewrite unpack_pack_d by assumption. f_equal. exact IH.
Qed.

Lemma type_in_app : forall ty l0 ls hb rest, type_line ty l0 = true -> utf8_enc (unlines (l0 :: ls)) = Some hb -> type_in (hb ++ rest) = ty.
Proof.
  intros ty l0 ls hb rest Hty He. apply andb_true_iff in Hty as [Ha Ht].
  assert (Hasc : utf8_enc l0 = Some l0).
  { apply utf8_enc_ascii. apply Forall_forall. intros x Hx. rewrite forallb_forall in Ha. specialize (Ha x Hx). apply andb_true_iff in Ha as [Ha _]. apply N.ltb_lt in Ha. assumption. }
  assert (Hn : no_lb is_lb_bytes l0 = true).
  { unfold no_lb. apply forallb_forall. intros x Hx. rewrite forallb_forall in Ha. specialize (Ha x Hx). apply andb_true_iff in Ha as [_ Ha]. assumption. }
  rewrite unlines_cons', !utf8_enc_app, Hasc in He. destruct (utf8_enc (unlines ls)) as [t|]; [|discriminate]. injection He as <-.
  unfold type_in. change [10%N] with [LF]. rewrite <- !app_assoc. cbn [app]. rewrite first_line_app by assumption.
  destruct (py_int_bytes (firstn 6 l0)); [|discriminate]. apply Z.eqb_eq. assumption.
Qed.
Lemma stored58b : forall c fd ho d r, repr58 fd true d r -> wf58 r -> q_dbl r = true -> (n_bytes58 r < 10 ^ 12)%Z -> no_delim (payload r) ->
  faithful c Add fd ho d 58 (read58 true ho r).
Proof.
  intros c fd ho d r R W Hdbl Hnb Hnd. assert (Hi := repr58_ids _ _ _ _ R). assert (Hp := wf58_pts r W).
  destruct (bin_ok _ (conj (n_bytes_pos r) Hnb)) as (_ & Hb & Hty).
  assert (Hok : Forall okline (l0_58 true r :: hd58 r)) by (constructor; [exact Hb|apply hd58_ok; assumption]).
  destruct (text_block_ok 58 (l0_58 true r) (hd58 r) Hok Hty) as (hb & He & _ & Hf & _ & _).
  destruct (write58_items c Add fd true d r R W) as (T & Es & HT).
  exists {| b_open := TLINE; b_body := hb ++ payload r; b_close := TLINE |}.
  assert (He' : utf8_enc (unlines (TAG :: l0_58 true r :: hd58 r)) = Some (TLINE ++ hb)).
  { change (unlines (TAG :: l0_58 true r :: hd58 r)) with (TLINE ++ unlines (l0_58 true r :: hd58 r)). rewrite utf8_enc_app, TLINE_enc, He. reflexivity. }
  assert (Htb : type_in (hb ++ payload r) = 58%Z).
  { eapply type_in_app; eassumption. }
  split; [split|split].
  - split; [left; reflexivity|]. split; [left; reflexivity|]. cbn [b_body b_close]. intros i Hi' Hd.
    destruct Hf as (_ & _ & Hf). cbn [text_block b_body b_close] in Hf. rewrite <- app_assoc in Hd.
    assert (Hc : closed hb).
    { destruct (closed_unlines (l0_58 true r :: hd58 r)) as [E|(q & x & E & Hx)].
      - exfalso. rewrite unlines_cons in E. destruct (l0_58 true r); discriminate.
      - rewrite E, utf8_enc_app in He. destruct (utf8_enc q) as [bq|]; [|discriminate]. right. exists bq, x. split; [|exact Hx].
        destruct Hx as [->| ->]; cbn in He; injection He as <-; reflexivity. }
    apply tags_In in Hd. rewrite tags_app_closed in Hd by assumption. apply in_app_or in Hd as [Hd|Hd].
    + assert (Et : tags hb = []) by (apply (tags_enc_nil (unlines (l0_58 true r :: hd58 r))); [assumption|apply unlines_tags; assumption]). rewrite Et in Hd. exact Hd.
    + apply in_map_iff in Hd as (j & <- & Hj). apply tags_In in Hj. apply (Hnd j); [|exact Hj]. rewrite app_length in Hi'. lia.
  - intro start. rewrite Es. rewrite (run_writes T _ (TLINE ++ hb) _ _ HT He'). cbn [tail58 app]. rewrite app_nil_r, run_raw.
    rewrite (writes_run [end_line] TLINE end_writes TLINE _ TLINE_enc). unfold block_bytes. cbn [b_open b_body b_close]. unfold payload. rewrite <- !app_assoc. reflexivity.
  - unfold reads. cbn [b_body b_open]. rewrite Htb. unfold extract_set. cbn [Z.eqb Pos.eqb]. rewrite app_assoc.
    rewrite (extract_head true r (TLINE ++ hb) (payload r) ho W Hi) by (assumption || auto). unfold read58.
    destruct ho; [rewrite base_end by assumption; reflexivity|].
    destruct (base_ix true r Hi) as (I1 & I2 & I3 & I4).
    assert (Ev : binary_values (base58 true r) (payload r) = Ok (flat_map (p_vals (q_cplx r) (q_even r)) (q_pts r))).
    { unfold binary_values. change (ix (base58 true r) "byte_ordering") with (@Ok pyval (VInt 1)). cbn [rbind]. change (py_eqZ (VInt 1) 1) with true. cbv iota zeta.
      rewrite I1. cbn [rbind]. replace (eq_one_of (VInt (odt_of (q_cplx r) (q_dbl r))) [2; 5]%Z) with false by (rewrite Hdbl; destruct (q_cplx r); reflexivity).
      unfold payload. rewrite unpack_payload; [reflexivity|]. apply Forall_fm. eapply Forall_impl; [|exact Hp]. intros p Hpp. eapply Forall_impl; [|apply (p_vals_ok (q_cplx r) (q_even r) p Hpp)]. intros f Hff. apply Hff. }
    rewrite Ev. cbn [rbind]. rewrite p_vals_raw. rewrite (assemble_ok (q_cplx r) (q_even r) (q_dbl r) _ _ _ _ I1 I2 I3 I4).
    + rewrite base_end by assumption. reflexivity.
    + rewrite Forall_map. eapply Forall_impl; [|exact Hp]. intros p (_ & H2 & H3). apply ntn_ok in H2. apply ntn_ok in H3. split; [apply H2|exact H3].
  - exact Htb.
Qed.
