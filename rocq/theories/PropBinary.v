(** C63: binary function sets (58b) laid out by any program. *)
From Coq Require Import String List NArith ZArith Bool Lia.
Import ListNotations.
From Verif Require Import PyBase PyNum PyVal Utf8 Tools DsNodes DsHeaders DsGroups Ds55 Ds58 Ds2414 Uff Facts IntFacts FloatFacts DecFacts FloatText FloatExact DictFacts
  Scan Container Append ContainerThms Utf8Facts Lines Stored Cells Rows RtNodes RtCs RtHeads RtElems RtGroups RtNodal RtFun RtFunSet RtAnalysis Witness
  PropNodes PropHeads PropGroups PropNodal PropFun PropAnalysis PropHistory Layout PropLayout Reading ReadNodes ReadSets Read55 Read58 Read2414 PropReading Ieee.
From Coq Require Import Lia.
Open Scope string_scope.
Open Scope list_scope.
Open Scope nat_scope.

(** The identification line (dataset_58.py:789-815): byte ordering, floating
    point format, number of header lines, number of bytes. *)
Record bin_id := { i_order : Z; i_format : Z; i_lines : Z; i_bytes : Z }.
Definition id_fields (i : bin_id) : list field :=
  [DI 6 58; DA 1 (lit "b"); DI 6 (i_order i); DI 6 (i_format i); DI 12 (i_lines i); DI 12 (i_bytes i); DI 6 0; DI 6 0; DI 12 0; DI 12 0].
(** Order of the bytes: 1 stands for the least significant byte first. *)
Definition big (i : bin_id) : bool := negb (i_order i =? 1)%Z.
(** The numbers of a set in the order of the text format, each with its
    precision: [xdbl] for abscissas, that of the ordinate data type for the
    others.  Documented abscissas are single (dataset_58.py:321). *)
Definition numbers (xdbl : bool) (r : func58) : list (bool * float) :=
  flat_map (fun p => (if q_even r then [] else [(xdbl, fst p)]) ++ [(q_dbl r, fst (snd p))] ++ (if q_cplx r then [(q_dbl r, snd (snd p))] else [])) (q_pts r).
(** A block with thirteen lines of text and the numbers in the byte order that
    the header announces. *)
Definition lays_numbers (xdbl : bool) (i : bin_id) (r : func58) (rest : bytes) (b : block) : Prop :=
  exists hb p1 ps nums, b_body b = hb ++ concat nums ++ rest /\
    utf8_decode hb = text_of (p1 :: ps) /\ lines_ok (p1 :: ps) /\
    type_line 58 (fst p1) = true /\ line_of false sep_none anyroom (fst p1) (id_fields i) /\
    Forall2 (line_of false sep_none anyroom) (map fst ps) (doc58_head r) /\
    Forall2 (fun n tf => stored_num (fst tf) (big i) n (snd tf)) nums (numbers xdbl r).
(** As documented: nothing behind the numbers. *)
Definition lays_documented (i : bin_id) (r : func58) (b : block) : Prop := lays_numbers false i r [] b.
(** As the program takes it: all numbers in the precision of the ordinates, and
    fewer bytes behind them than a number has. *)
Definition lays_binary (i : bin_id) (r : func58) (b : block) : Prop :=
  exists rest, lays_numbers (q_dbl r) i r rest b /\ length rest < width (q_dbl r).
Definition readable_binary (r : func58) : Prop :=
  length (q_ids r) = 5 /\ (q_cplx r = true -> Forall (fun p : pt => f_finite (fst (snd p)) = true /\ okfin (snd (snd p))) (q_pts r)).
(** What is read: the header, and the points with exactly the stored values. *)
Definition read_binary (ho : bool) (i : bin_id) (r : func58) : dict :=
  [(KS "type", VInt 58); (KS "binary", VInt 1); (KS "byte_ordering", VInt (i_order i)); (KS "fp_format", VInt (i_format i));
   (KS "n_ascii_lines", VInt (i_lines i)); (KS "n_bytes", VInt (i_bytes i))] ++ head_out r ++
  if ho then [(KS "x", VNone); (KS "data", VNone)]
  else [(KS "x", x_out (q_even r) (rd 5 (q_min r)) (rd 5 (q_inc r)) (q_pts r)); (KS "data", y_out (q_cplx r) (q_pts r))].

Lemma decode_nil : forall b, utf8_decode b = [] -> b = [].
Proof.
  intros [|c b] H; [reflexivity|]. exfalso. destruct (N.ltb_spec c 128) as [Hc|Hc].
  - rewrite decode_ascii in H by assumption. discriminate.
  - destruct (decode_high c b Hc) as (x & r & E & _). rewrite E in H. discriminate.
Qed.
Lemma unpack_more : forall (conv : bytes -> float) w nums fs rest, 0 < w -> Forall2 (fun b f => length b = w /\ conv b = f) nums fs -> length rest < w ->
  unpack_all conv w (length (concat nums ++ rest) / w) (concat nums ++ rest) = fs.
Proof.
  intros conv w nums fs rest Hw H Hr.
  assert (E : length (concat nums ++ rest) / w = length nums).
  { assert (L : length (concat nums) = length nums * w).
    { clear -H. induction H as [|b f nums fs [Hb _] _ IH]; [reflexivity|]. cbn [concat length]. rewrite app_length, IH, Hb. reflexivity. }
    rewrite app_length, L, Nat.add_comm, Nat.div_add by lia. rewrite Nat.div_small by assumption. reflexivity. }
  rewrite E. clear E Hr. induction H as [|b f nums fs [Hb <-] _ IH]; [reflexivity|]. cbn [concat length unpack_all].
  rewrite <- app_assoc. rewrite firstn_app_exact, skipn_app_exact by assumption. f_equal. exact IH.
Qed.
Lemma seventh : forall i l e, line_of false sep_none anyroom l (id_fields i) ->
  match nth_error (l ++ e) 6 with Some c => (lower_char c =? 98)%N | None => false end = true.
Proof.
  intros i l e (cols & k & -> & Hc & _). unfold id_fields in Hc. destruct cols as [|c1 [|c2 cols]]; cbn [columns] in Hc; try contradiction; [destruct Hc as (_ & _ & [])|].
  destruct Hc as ((L1 & _) & _ & (L2 & a & b & E2) & _).
  assert (Ec : c2 = lit "b").
  { rewrite E2 in L2. rewrite !app_length, !repeat_length in L2. change (length (lit "b")) with 1 in L2. assert (a = 0) by lia. assert (b = 0) by lia. subst a b. exact E2. }
  cbn [concat]. rewrite <- !app_assoc. rewrite nth_error_app2 by lia. rewrite L1, Ec. reflexivity.
Qed.
Lemma numbers_raw : forall r, numbers (q_dbl r) r = map (pair (q_dbl r)) (flat_map (raw (q_cplx r) (q_even r)) (q_pts r)).
Proof.
  intro r. unfold numbers. induction (q_pts r) as [|p ps IH]; [reflexivity|]. cbn [flat_map]. rewrite map_app, IH. f_equal.
  unfold raw. destruct (q_even r), (q_cplx r); reflexivity.
Qed.

Lemma type_app : forall ty hb x l e t, utf8_decode hb = l ++ e ++ t -> line_end e -> type_line ty l = true -> type_in (hb ++ x) = ty.
Proof.
  intros ty hb x l e t Hd He Ht.
  assert (Hi : forall c, is_lb_bytes c = true -> ~ In c l).
  { unfold type_line in Ht. apply andb_true_iff in Ht as [Ha _]. intros c Hc Hin. rewrite forallb_forall in Ha. specialize (Ha c Hin). rewrite Hc in Ha.
    rewrite andb_false_r in Ha. discriminate. }
  destruct He as [-> | ->]; cbn [app] in Hd.
  - destruct (decode_break LF hb l t ltac:(unfold LF; lia) Hd (Hi LF eq_refl)) as (bl & bb & -> & El & _ & _).
    apply (type_of_line ty _ l [LF] (utf8_decode (bb ++ x))); [|left; reflexivity|exact Ht].
    rewrite <- app_assoc. cbn [app]. rewrite (decode_cut _ bl LF (bb ++ x) (le_n _)) by (unfold LF; lia). rewrite El. reflexivity.
  - destruct (decode_break CR hb l (LF :: t) ltac:(unfold CR; lia) Hd (Hi CR eq_refl)) as (bl & bb & -> & El & Eb & _).
    destruct bb as [|b0 bb]; [discriminate|].
    assert (E0 : b0 = LF).
    { destruct (N.ltb_spec b0 128) as [H|H]; [rewrite decode_ascii in Eb by assumption; congruence|].
      destruct (decode_high b0 bb H) as (c & r & E & Hc). rewrite E in Eb. injection Eb as -> _. unfold LF in Hc. lia. }
    subst b0. apply (type_of_line ty _ l [CR; LF] (utf8_decode (bb ++ x))); [|right; reflexivity|exact Ht].
    rewrite <- app_assoc. cbn [app]. rewrite (decode_cut _ bl CR (LF :: bb ++ x) (le_n _)) by (unfold CR; lia). rewrite El. rewrite decode_ascii by (unfold LF; lia). reflexivity.
Qed.

(** The header, whatever stands behind it. *)
Definition pre_out (i : bin_id) (r : func58) : dict :=
  [(KS "type", VInt 58); (KS "binary", VInt 1); (KS "byte_ordering", VInt (i_order i)); (KS "fp_format", VInt (i_format i));
   (KS "n_ascii_lines", VInt (i_lines i)); (KS "n_bytes", VInt (i_bytes i))] ++ head_out r.
Lemma pre_facts : forall i r, length (q_ids r) = 5 ->
  (forall v w, dupdate (pre_out i r) [(KS "x", v); (KS "data", w)] = pre_out i r ++ [(KS "x", v); (KS "data", w)]) /\
  ix (pre_out i r) "byte_ordering" = Ok (VInt (i_order i)) /\ ix (pre_out i r) "ord_data_type" = Ok (VInt (odt_of (q_cplx r) (q_dbl r))) /\
  ix (pre_out i r) "abscissa_spacing" = Ok (even_val (q_even r)) /\ ix (pre_out i r) "abscissa_min" = Ok (VFloat (rd 5 (q_min r))) /\
  ix (pre_out i r) "abscissa_inc" = Ok (VFloat (rd 5 (q_inc r))).
Proof.
  intros i r Hi. unfold pre_out, head_out. destruct (q_ids r) as [|s1 [|s2 [|s3 [|s4 [|s5 [|]]]]]]; try discriminate. repeat split.
Qed.
Lemma binary_header : forall i r op hb p1 ps x ho, delim_line op -> utf8_decode hb = text_of (p1 :: ps) -> lines_ok (p1 :: ps) -> type_line 58 (fst p1) = true ->
  line_of false sep_none anyroom (fst p1) (id_fields i) -> Forall2 (line_of false sep_none anyroom) (map fst ps) (doc58_head r) -> length (q_ids r) = 5 ->
  type_in (hb ++ x) = 58%Z /\ extract_set 58 (op ++ hb ++ x) ho = try_any
    (if ho then Ok (dupdate (pre_out i r) [(KS "x", VNone); (KS "data", VNone)])
     else do values <- binary_values (pre_out i r) x ;; assemble58 (pre_out i r) values) (PyException "Error reading data-set #58b").
Proof.
  intros i r op hb p1 ps x ho Ho Hd Hl Ht Hid Hh Hi.
  destruct (open_text _ Ho) as (p0 & Eo & N0 & E0 & A0).
  assert (Hl0 : lines_ok (p0 :: p1 :: ps)) by (constructor; [split; assumption|exact Hl]).
  assert (Hd0 : utf8_decode (op ++ hb) = text_of (p0 :: p1 :: ps)) by (rewrite ascii_app by assumption; rewrite Hd, Eo; reflexivity).
  assert (L13 : length (p0 :: p1 :: ps) = 13).
  { apply Forall2_len in Hh. rewrite map_length, doc58_head_length in Hh by assumption. cbn [length]. unfold str in *. lia. }
  assert (G : forall x, join (firstn 13 (splitlines_bytes true ((op ++ hb) ++ x))) = op ++ hb /\ join (skipn 13 (splitlines_bytes true ((op ++ hb) ++ x))) = x).
  { destruct (cut_lines (p0 :: p1 :: ps) (op ++ hb) [] Hl0) as (h1 & r1 & E1 & _ & E3 & G); [rewrite app_nil_r; exact Hd0|].
    apply decode_nil in E3. subst r1. rewrite app_nil_r in E1. rewrite E1. unfold str in *. rewrite L13 in G. exact G. }
  assert (Hh' : Forall2 (line_of false sep_none room58) (map fst ps) (doc58_head r)).
  { clear -Hh Hi. unfold doc58_head in *. destruct (q_ids r) as [|s1 [|s2 [|s3 [|s4 [|s5 [|]]]]]]; try discriminate. cbn [map app] in *.
    repeat match goal with H : Forall2 _ _ (_ :: _) |- _ => inversion H; clear H; subst end.
    match goal with H : Forall2 _ _ [] |- _ => inversion H; clear H; subst end.
    assert (A : forall l fs, line_of false sep_none anyroom l fs -> (forall k, room58 fs k) -> line_of false sep_none room58 l fs).
    { intros l fs (cols & k & A1 & A2 & _) A3. exists cols, k. auto. }
    repeat (apply Forall2_cons; [apply A; [assumption|intro k; exact Logic.I]|]). apply Forall2_nil. }
  inversion Hl as [|? ? [H1 He] Hl']; subst. split.
  { apply (type_app 58 hb x (fst p1) (snd p1) (text_of ps)); try assumption.
    rewrite Hd. unfold text_of. cbn [map concat]. apply app_assoc_reverse. }
  unfold extract_set. cbn [Z.eqb Pos.eqb]. rewrite app_assoc.
  rewrite (extract_rd58 r ((fst p0 ++ snd p0) ++ hb) x ho p0 p1 ps true); try assumption.
  2: { unfold whole. eapply seventh. exact Hid. }
  cbv iota. f_equal.
  assert (Er : header_recs (map whole (p0 :: p1 :: ps)) [(KS "type", VInt 58); (KS "binary", VInt 1)] [rec58b] =
    Ok [(KS "type", VInt 58); (KS "binary", VInt 1); (KS "byte_ordering", VInt (i_order i)); (KS "fp_format", VInt (i_format i)); (KS "n_ascii_lines", VInt (i_lines i)); (KS "n_bytes", VInt (i_bytes i))]).
  { unfold rec58b, DsHeaders.H. cbn [map]. cbn [header_recs h_line h_min h_widths h_types h_names ln nth_error of_option rbind].
    erewrite header_whole; [|exact Hid|exact He|reflexivity|reflexivity|reflexivity|cbn; lia|reflexivity|reflexivity|reflexivity]. reflexivity. }
  match type of Er with _ = Ok ?o => match goal with |- context [header_recs ?a ?b ?c] => replace (header_recs a b c) with (@Ok dict o) by (symmetry; exact Er) end end.
  cbn [rbind]. cbv zeta. clear Er.
  match goal with |- context [dupdate ?d0 (head_out r)] => replace (dupdate d0 (head_out r)) with (pre_out i r); [reflexivity|] end.
  unfold pre_out, head_out. destruct (q_ids r) as [|s1 [|s2 [|s3 [|s4 [|s5 [|]]]]]]; try discriminate. reflexivity.
Qed.
Lemma read_binary_pre : forall ho i r, read_binary ho i r = pre_out i r ++
  if ho then [(KS "x", VNone); (KS "data", VNone)]
  else [(KS "x", x_out (q_even r) (rd 5 (q_min r)) (rd 5 (q_inc r)) (q_pts r)); (KS "data", y_out (q_cplx r) (q_pts r))].
Proof. intros. unfold read_binary, pre_out. rewrite <- app_assoc. reflexivity. Qed.

Lemma binary_reads : forall i r b ho, delim_line (b_open b) -> lays_binary i r b -> readable_binary r ->
  reads b ho (read_binary ho i r) /\ type_in (b_body b) = 58%Z.
Proof.
  intros i r b ho Ho (rest & (hb & p1 & ps & nums & Eb & Hd & Hl & Ht & Hid & Hh & Hn) & Hr) [Hi Hf].
  destruct (binary_header i r (b_open b) hb p1 ps (concat nums ++ rest) ho Ho Hd Hl Ht Hid Hh Hi) as [T X].
  rewrite <- Eb in T. split; [|exact T]. unfold reads. rewrite T, Eb, X. rewrite read_binary_pre.
  destruct (pre_facts i r Hi) as (Ex & I0 & I1 & I2 & I3 & I4).
  destruct ho; [rewrite Ex; reflexivity|].
  assert (Ev : binary_values (pre_out i r) (concat nums ++ rest) = Ok (flat_map (raw (q_cplx r) (q_even r)) (q_pts r))).
  { unfold binary_values. rewrite I0, I1. cbn [rbind py_eqZ]. rewrite numbers_raw in Hn. remember (flat_map (raw (q_cplx r) (q_even r)) (q_pts r)) as fs eqn:Efs. clear Efs.
    assert (Q : Forall2 (fun b f => length b = width (q_dbl r) /\ (if q_dbl r then unpack_d else unpack_f) ((if (i_order i =? 1)%Z then fun b => b else @rev N) b) = f) nums fs).
    { clear -Hn. revert nums Hn. induction fs as [|f fs IH]; intros nums Hn; cbn [map] in Hn; inversion Hn as [|n tf nums' tl H0 H1]; subst; constructor; [|apply IH; assumption].
      cbn [fst snd] in H0. split; [apply H0|]. apply unpack_stored in H0. unfold big in H0. destruct (i_order i =? 1)%Z; exact H0. }
    clear Hn. destruct (q_dbl r).
    - replace (eq_one_of (VInt (odt_of (q_cplx r) true)) [2; 5]%Z) with false by (destruct (q_cplx r); reflexivity). f_equal. apply unpack_more; [lia|exact Q|exact Hr].
    - replace (eq_one_of (VInt (odt_of (q_cplx r) false)) [2; 5]%Z) with true by (destruct (q_cplx r); reflexivity). f_equal. apply unpack_more; [lia|exact Q|exact Hr]. }
  rewrite Ev. cbn [rbind]. rewrite (assemble_rd (q_cplx r) (q_even r) (q_dbl r) _ _ _ _ I1 I2 I3 I4 Hf). rewrite Ex. reflexivity.
Qed.

(** Such a set is read with exactly the stored values. *)
Theorem C63_block : forall i r b ho, delim_line (b_open b) -> lays_binary i r b -> readable_binary r ->
  type_in (b_body b) = 58%Z /\ extract_set 58 (b_open b ++ b_body b) ho = Ok (read_binary ho i r).
Proof.
  intros i r b ho Ho H Hr. destruct (binary_reads i r b ho Ho H Hr) as [R E]. split; [exact E|]. unfold reads in R. rewrite E in R. exact R.
Qed.
Print Assumptions C63_block.

(** Documented sets with even abscissas or in single precision. *)
Lemma documented_binary : forall i r b, lays_documented i r b -> q_even r = true \/ q_dbl r = false -> lays_binary i r b.
Proof.
  intros i r b (hb & p1 & ps & nums & H) Hc. exists []. split; [|destruct (q_dbl r); cbn; lia]. exists hb, p1, ps, nums.
  assert (E : numbers (q_dbl r) r = numbers false r).
  { unfold numbers. destruct Hc as [Hc|Hc]; rewrite Hc; reflexivity. }
  rewrite E. exact H.
Qed.
Theorem C63_documented : forall i r b ho, delim_line (b_open b) -> lays_documented i r b -> readable_binary r -> q_even r = true \/ q_dbl r = false ->
  type_in (b_body b) = 58%Z /\ extract_set 58 (b_open b ++ b_body b) ho = Ok (read_binary ho i r).
Proof. intros i r b ho Ho H Hr Hc. apply C63_block; [assumption| |assumption]. apply documented_binary; assumption. Qed.
Print Assumptions C63_documented.

(** Files of sets in text and in binary form. *)
Definition stands (b : block) (x : content + bin_id * func58) : Prop :=
  match x with inl c => lays_out c b /\ readable c | inr ir => lays_binary (fst ir) (snd ir) b /\ readable_binary (snd ir) end.
Definition out_of (ho : bool) (x : content + bin_id * func58) : dict := match x with inl c => reading ho c | inr ir => read_binary ho (fst ir) (snd ir) end.
Definition kind_of (x : content + bin_id * func58) : Z := match x with inl c => type_of c | inr _ => 58%Z end.
Theorem C63_file : forall bs xs ho, Forall framed bs -> Forall2 stands bs xs ->
  let u := view (file_of bs) in
  set_types u = map kind_of xs /\ n_sets u = length xs /\
  read_sets (Some (file_of bs)) u SelAll ho = Ok (u, shape_result (map (out_of ho) xs)) /\
  (forall i x, nth_error xs i = Some x -> read_sets (Some (file_of bs)) u (SelOne (Z.of_nat i)) ho = Ok (u, One (out_of ho x))).
Proof.
  intros bs xs ho Hf H u.
  assert (G : Forall2 (fun b o => reads b ho o) bs (map (out_of ho) xs) /\ map (fun b => type_in (b_body b)) bs = map kind_of xs).
  { clear u. induction H as [|b x bs xs Hb _ IH]; [split; [constructor|reflexivity]|]. inversion Hf as [|? ? Hf1 Hf2]; subst. destruct (IH Hf2) as [I1 I2].
    assert (Q : reads b ho (out_of ho x) /\ type_in (b_body b) = kind_of x).
    { destruct x as [c|[i r]]; destruct Hb as [Hb Hr]; [exact (lays_out_reads c b ho (proj1 Hf1) Hb Hr)|exact (binary_reads i r b ho (proj1 Hf1) Hb Hr)]. }
    destruct Q as [R E]. split; [constructor; assumption|]. cbn [map]. rewrite E, I2. reflexivity. }
  destruct G as [G1 G2]. destruct (read_blocks bs ho _ Hf G1) as (R1 & R2 & R3 & R4). fold u in R1, R2, R3, R4.
  split; [rewrite R4; exact G2|]. split; [rewrite R3; apply map_length|]. split; [exact R1|].
  intros i x Hi. apply R2. apply map_nth_error. assumption.
Qed.
Print Assumptions C63_file.

(** In documented sets of double precision with uneven abscissas the abscissas
    are single: these sets are never read right, some points are missing. *)
Lemma unpack_length : forall conv w n b, length (unpack_all conv w n b) = n.
Proof. intros conv w n. induction n as [|n IH]; intro b; [reflexivity|]. cbn [unpack_all length]. rewrite IH. reflexivity. Qed.
Lemma every_length : forall A step skip (l : list A), skip < step -> length (every_aux step skip l) * step + skip <= length l + step - 1.
Proof.
  intros A step skip l. revert skip. induction l as [|x l IH]; intros skip Hs; [cbn; lia|]. cbn [every_aux length]. destruct skip as [|k].
  - specialize (IH (pred step) ltac:(lia)). cbn [length]. nia.
  - specialize (IH k ltac:(lia)). lia.
Qed.
Lemma every_upto_length : forall A drop step (l : list A), step = S drop -> 0 < drop -> length (every_upto 0 drop step l) * step <= length l.
Proof.
  intros A drop step l -> Hd. unfold every_upto, every. assert (H := every_length A (S drop) 0 (firstn (length l - drop) l) ltac:(lia)).
  rewrite firstn_length in H. destruct (Nat.le_gt_cases drop (length l)); [lia|].
  replace (length l - drop) with 0 by lia. cbn [firstn every_aux length]. lia.
Qed.
Lemma nums_length : forall r nums bg, q_dbl r = true -> q_even r = false -> Forall2 (fun n tf => stored_num (fst tf) bg n (snd tf)) nums (numbers false r) ->
  length (concat nums) = length (q_pts r) * (if q_cplx r then 20 else 12).
Proof.
  intros r nums bg Hd He. unfold numbers. rewrite Hd, He. revert nums. induction (q_pts r) as [|p ps IH]; intros nums H; cbn [flat_map] in H; [inversion H; reflexivity|].
  destruct (q_cplx r); cbn [app] in H.
  - inversion H as [|n1 ? l1 ? A1 H1]; subst. inversion H1 as [|n2 ? l2 ? A2 H2]; subst. inversion H2 as [|n3 ? l3 ? A3 H3]; subst.
    destruct A1 as [A1 _], A2 as [A2 _], A3 as [A3 _]. cbn [fst width] in *. cbn [concat length]. rewrite !app_length, (IH l3 H3). unfold bytes in *. lia.
  - inversion H as [|n1 ? l1 ? A1 H1]; subst. inversion H1 as [|n2 ? l2 ? A2 H2]; subst.
    destruct A1 as [A1 _], A2 as [A2 _]. cbn [fst width] in *. cbn [concat length]. rewrite !app_length, (IH l2 H2). unfold bytes in *. lia.
Qed.
Theorem C63_abscissa_refuted : forall i r b out, delim_line (b_open b) -> lays_documented i r b -> length (q_ids r) = 5 ->
  q_dbl r = true -> q_even r = false -> q_pts r <> [] -> extract_set 58 (b_open b ++ b_body b) false = Ok out ->
  exists xs, dget out (KS "x") = Some (vfloats xs) /\ length xs < length (q_pts r).
Proof.
  intros i r b out Ho (hb & p1 & ps & nums & Eb & Hd & Hl & Ht & Hid & Hh & Hn) Hi Hdbl Hev Hne H.
  destruct (binary_header i r (b_open b) hb p1 ps (concat nums ++ []) false Ho Hd Hl Ht Hid Hh Hi) as [_ X]. rewrite Eb, X in H. clear X.
  destruct (pre_facts i r Hi) as (Ex & I0 & I1 & I2 & I3 & I4). rewrite app_nil_r in H. assert (L := nums_length r nums _ Hdbl Hev Hn).
  unfold binary_values in H. rewrite I0, I1 in H. cbn [rbind py_eqZ] in H. rewrite Hdbl in *.
  assert (E25 : eq_one_of (VInt (odt_of (q_cplx r) true)) [2; 5]%Z = false) by (destruct (q_cplx r); reflexivity). rewrite E25 in H. cbn [rbind] in H.
  match type of H with context [unpack_all ?c 8 ?n ?p] => remember (unpack_all c 8 n p) as vals eqn:Ev end.
  assert (Lv : length vals = length (concat nums) / 8) by (rewrite Ev; apply unpack_length). clear Ev. rewrite L in Lv. clear L.
  assert (P : 0 < length (q_pts r)) by (destruct (q_pts r); [congruence|cbn; lia]).
  unfold assemble58 in H. rewrite I1, I2, Hev in H. cbn [rbind even_val py_eqZ Z.eqb] in H.
  assert (Gx : forall v w, dget (pre_out i r ++ [(KS "x", v); (KS "data", w)]) (KS "x") = Some v).
  { intros v w. unfold pre_out, head_out. destruct (q_ids r) as [|s1 [|s2 [|s3 [|s4 [|s5 [|]]]]]]; try discriminate. reflexivity. }
  destruct (q_cplx r).
  - change (eq_one_of (VInt (odt_of true true)) [2; 4]%Z) with false in H. change (eq_one_of (VInt (odt_of true true)) [5; 6]%Z) with true in H. cbv iota in H.
    destruct (np_cjoin (every_upto 1 1 3 vals) (every 2 3 vals)) as [data|er]; cbn [rbind] in H; unfold try_any in H; cbv iota in H; [|destruct er; discriminate]. rewrite Ex in H. assert (Eo : out = _) by (symmetry; injection H; intro E; exact E); rewrite Eo.
    exists (every_upto 0 2 3 vals). split; [apply Gx|]. assert (Q := every_upto_length float 2 3 vals eq_refl ltac:(lia)). rewrite Lv in Q.
    assert (D := Nat.mul_div_le (length (q_pts r) * 20) 8 ltac:(lia)). lia.
  - change (eq_one_of (VInt (odt_of false true)) [2; 4]%Z) with true in H. cbn [rbind] in H. unfold try_any in H. cbv iota in H. rewrite Ex in H. assert (Eo : out = _) by (symmetry; injection H; intro E; exact E); rewrite Eo.
    exists (every_upto 0 1 2 vals). split; [apply Gx|]. assert (Q := every_upto_length float 1 2 vals eq_refl ltac:(lia)). rewrite Lv in Q.
    assert (D := Nat.mul_div_le (length (q_pts r) * 12) 8 ltac:(lia)). lia.
Qed.
Print Assumptions C63_abscissa_refuted.

(* ------------------------------------------------------------------ *)
(** ** Examples *)

Lemma stored_chk : forall (dbl bg : bool) (b : bytes) (f : float), length b = width dbl -> forallb (fun x => (x <? 256)%N) b = true ->
  (if dbl then unpack_d else unpack_f) (if bg then rev b else b) = f -> stored_num dbl bg b f.
Proof.
  intros dbl bg b f Hl Hb E. assert (Hb' : Forall is_byte b).
  { rewrite Forall_forall. intros x Hx. rewrite forallb_forall in Hb. apply N.ltb_lt. apply Hb. exact Hx. }
  destruct (stored_exists dbl bg b Hl Hb') as [g Hg]. assert (E' := unpack_stored _ _ _ _ Hg). destruct bg; rewrite E in E'; subst g; exact Hg.
Qed.
Fixpoint nums_chk (bg : bool) (nums : list bytes) (tfs : list (bool * float)) : Prop :=
  match nums, tfs with
  | [], [] => True
  | b :: nums', (dbl, f) :: tfs' => (length b = width dbl /\ forallb (fun x => (x <? 256)%N) b = true /\
      (if dbl then unpack_d else unpack_f) (if bg then rev b else b) = f) /\ nums_chk bg nums' tfs'
  | _, _ => False
  end.
Lemma chk_nums : forall bg nums tfs, nums_chk bg nums tfs -> Forall2 (fun n tf => stored_num (fst tf) bg n (snd tf)) nums tfs.
Proof.
  intros bg. induction nums as [|b nums IH]; intros [|[dbl f] tfs] H; cbn [nums_chk] in H; try contradiction; constructor; [|apply IH; apply H].
  destruct H as ((H1 & H2 & H3) & _). apply stored_chk; assumption.
Qed.
(** Lines drawn as in C62: DOS line breaks and blanks at the ends. *)
Definition bin_lines (i : bin_id) (r : func58) : list str :=
  (concat (map (draw false) (id_fields i)) ++ repeat blank 2) :: map (fun fs => concat (map (draw false) fs) ++ repeat blank 3) (doc58_head r).
Definition bin_text (i : bin_id) (r : func58) : list (str * str) := map dos_line (bin_lines i r).
Definition bin_block (i : bin_id) (r : func58) (nums : list bytes) (rest : bytes) : block :=
  {| b_open := dos_delim; b_body := match utf8_enc (text_of (bin_text i r)) with Some b => b | None => [] end ++ concat nums ++ rest; b_close := dos_delim |}.
Lemma bin_lays : forall xdbl i r nums rest, 
  utf8_decode (match utf8_enc (text_of (bin_text i r)) with Some b => b | None => [] end) = text_of (bin_text i r) ->
  forallb (no_lb is_lb_str) (bin_lines i r) = true -> type_line 58 (hd [] (bin_lines i r)) = true ->
  line_chk false sep_none (fun _ => True) true (hd [] (bin_lines i r)) (id_fields i) ->
  laid_chk false (tl (bin_lines i r)) (doc58_head r) -> nums_chk (big i) nums (numbers xdbl r) ->
  lays_numbers xdbl i r rest (bin_block i r nums rest).
Proof.
  intros xdbl i r nums rest H1 H2 H3 H4 H5 H6.
  exists (match utf8_enc (text_of (bin_text i r)) with Some b => b | None => [] end), (dos_line (hd [] (bin_lines i r))), (map dos_line (tl (bin_lines i r))), nums.
  split; [reflexivity|]. split; [exact H1|]. split.
  { unfold lines_ok. rewrite Forall_forall. intros p Hp. change (In p (map dos_line (bin_lines i r))) in Hp. apply in_map_iff in Hp as (l & <- & Hl).
    rewrite forallb_forall in H2. split; [apply H2; exact Hl|]. right. reflexivity. }
  split; [exact H3|]. split; [exact (chk_line _ _ _ _ _ _ H4)|]. split; [|apply chk_nums; exact H6].
  rewrite map_map, map_id. revert H5. generalize (doc58_head r). generalize (tl (bin_lines i r)). clear.
  induction l as [|l ls IH]; intros [|fs recs] H; cbn [laid_chk] in H; try contradiction; constructor.
  - exact (chk_line _ _ _ _ _ _ (proj1 H)).
  - apply IH. apply H.
Qed.
Lemma chk_head : forall ls recs, laid_chk false ls recs -> Forall2 (line_of false sep_none anyroom) ls recs.
Proof.
  induction ls as [|l ls IH]; intros [|fs recs] H; cbn [laid_chk] in H; try contradiction; constructor.
  - exact (chk_line _ _ _ _ _ _ (proj1 H)).
  - apply IH. apply H.
Qed.
Ltac bin_tac := apply bin_lays; [vm_compute; reflexivity|vm_compute; reflexivity|vm_compute; reflexivity|..];
  vm_compute; repeat match goal with |- _ /\ _ => split end; try exact Logic.I; try reflexivity; repeat constructor.

(** Complex numbers with uneven abscissas, single precision, most significant
    byte first, and a line break behind them. *)
Definition nums1 : list bytes :=
  [[63; 128; 0; 0]; [64; 73; 15; 219]; [190; 76; 204; 205]; [127; 127; 255; 255]; [0; 0; 0; 1]; [128; 0; 0; 0]]%N.
Definition fs1 : list float := Eval vm_compute in map (fun b => unpack_f (rev b)) nums1.
Definition i1 : bin_id := {| i_order := 2; i_format := 2; i_lines := 11; i_bytes := 24 |}.
Definition r1 : func58 := Eval vm_compute in
  r58 true false false f_zero f_zero [(nth 0 fs1 f_zero, (nth 1 fs1 f_zero, nth 2 fs1 f_zero)); (nth 3 fs1 f_zero, (nth 4 fs1 f_zero, nth 5 fs1 f_zero))].
(** Real numbers with even abscissas, double precision, least significant byte
    first; among them infinity and a number that is none. *)
Definition ys2 : list float := Eval vm_compute in [fl "1.5"; fl "-0.1"; fl "inf"; fl "nan"; fl "1e300"].
Definition i2 : bin_id := {| i_order := 1; i_format := 2; i_lines := 11; i_bytes := 40 |}.
Definition r2 : func58 := Eval vm_compute in r58 false true true (fl "0") (fl "0.5") (map (fun y => (f_zero, (y, f_zero))) ys2).
(** Complex numbers with abscissas in double precision, most significant byte first. *)
Definition ps3 : list pt := Eval vm_compute in [(fl "0.1", (fl "1", fl "2")); (fl "0.25", (fl "-0.1", fl "1e300"))].
Definition i3 : bin_id := {| i_order := 2; i_format := 2; i_lines := 11; i_bytes := 48 |}.
Definition r3 : func58 := Eval vm_compute in r58 true true false f_zero f_zero ps3.
Definition big_d (f : float) : bytes := rev (pack_d f).
Definition bs63 : list block :=
  [bin_block i1 r1 nums1 [CR; LF]; dos_block (X151 h151); bin_block i2 r2 (map pack_d ys2) [];
   bin_block i3 r3 (map big_d (flat_map (fun p => [fst p; fst (snd p); snd (snd p)]) ps3)) [LF]].
Definition xs63 : list (content + bin_id * func58) := [inr (i1, r1); inl (X151 h151); inr (i2, r2); inr (i3, r3)].
Example C63_example : Forall framed bs63 /\ Forall2 stands bs63 xs63 /\ lays_documented i2 r2 (nth 2 bs63 (bin_block i2 r2 [] [])).
Proof.
  split; [|split].
  - unfold bs63. repeat (apply Forall_cons; [apply chk_framed; [right; right; right; reflexivity|right; right; right; reflexivity|vm_compute; reflexivity]|]). apply Forall_nil.
  - unfold bs63, xs63. apply Forall2_cons; [|apply Forall2_cons; [|apply Forall2_cons; [|apply Forall2_cons; [|apply Forall2_nil]]]]; cbn [stands fst snd].
    + split; [exists [CR; LF]; split; [bin_tac|cbn; lia]|]. split; [reflexivity|]. intros _. repeat constructor.
    + split; [lays|exact Logic.I].
    + split; [exists []; split; [bin_tac|cbn; lia]|]. split; [reflexivity|]. discriminate.
    + split; [exists [LF]; split; [bin_tac|cbn; lia]|]. split; [reflexivity|]. intros _. repeat constructor.
  - unfold lays_documented. cbn [nth bs63]. bin_tac.
Qed.
(** Double precision with single abscissas, as documented. *)
Definition r4 : func58 := Eval vm_compute in r58 false true false f_zero f_zero [(fl "1", (fl "2", f_zero)); (fl "3", (fl "5", f_zero))].
Definition i4 : bin_id := {| i_order := 2; i_format := 2; i_lines := 11; i_bytes := 24 |}.
Definition nums4 : list bytes := [[63; 128; 0; 0]; big_d (fl "2"); [64; 64; 0; 0]; big_d (fl "5")]%N.
Example C63_abscissa_example : lays_documented i4 r4 (bin_block i4 r4 nums4 []) /\
  exists out, extract_set 58 (b_open (bin_block i4 r4 nums4 []) ++ b_body (bin_block i4 r4 nums4 [])) false = Ok out.
Proof. split; [unfold lays_documented; bin_tac|]. eexists. vm_compute. reflexivity. Qed.

(* ------------------------------------------------------------------ *)
(** ** Other number formats, and numbers that look like a delimiter *)

(** Format 3 (dataset_58.py:810): sign, an exponent of 16 with excess 64, a fraction of 24 bits. *)
Definition stored_ibm (b : bytes) (f : float) : Prop :=
  length b = 4 /\ Forall is_byte b /\ exists (s : bool) (E F : Z), (0 <= E < 128)%Z /\ (0 <= F < 2 ^ 24)%Z /\
    big_value b = ((if s then 2 ^ 31 else 0) + E * 2 ^ 24 + F)%Z /\
    f_valid f = true /\ f_finite f = true /\ fsign f = s /\ QArith_base.Qeq (fmag f) (QArith_base.Qmult (QArith_base.inject_Z F) (QFacts.bpow 2 (4 * (E - 64) - 24))).
Definition fl1 : float := Eval vm_compute in fl "1".
(** The header announces that format, and the numbers are read as if they were
    in the format of IEEE 754. *)
Theorem C63_format_refuted : exists i r b hb p1 ps nums, i_format i = 3%Z /\ delim_line (b_open b) /\ framed b /\ b_body b = hb ++ concat nums /\
  utf8_decode hb = text_of (p1 :: ps) /\ lines_ok (p1 :: ps) /\ type_line 58 (fst p1) = true /\
  line_of false sep_none anyroom (fst p1) (id_fields i) /\ Forall2 (line_of false sep_none anyroom) (map fst ps) (doc58_head r) /\
  Forall2 stored_ibm nums (map snd (numbers false r)) /\ readable_binary r /\
  extract_set 58 (b_open b ++ b_body b) false <> Ok (read_binary false i r).
Proof.
  set (i := {| i_order := 2; i_format := 3; i_lines := 11; i_bytes := 4 |}%Z). set (r := r58 false false true f_zero (fl "1") [(f_zero, (fl "1", f_zero))]).
  set (nums := [[65; 16; 0; 0]]%N : list bytes).
  exists i, r, (bin_block i r nums []), (match utf8_enc (text_of (bin_text i r)) with Some b => b | None => [] end),
    (dos_line (hd [] (bin_lines i r))), (map dos_line (tl (bin_lines i r))), nums.
  split; [reflexivity|]. split; [right; right; right; reflexivity|].
  split; [apply chk_framed; [right; right; right; reflexivity|right; right; right; reflexivity|vm_compute; reflexivity]|].
  split; [unfold bin_block; cbn [b_body]; rewrite app_nil_r; reflexivity|].
  split; [vm_compute; reflexivity|].
  split. { unfold lines_ok. rewrite Forall_forall. intros p Hp. change (In p (map dos_line (bin_lines i r))) in Hp. apply in_map_iff in Hp as (l & <- & Hl).
    split; [|right; reflexivity]. revert l Hl. apply forallb_forall. vm_compute. reflexivity. }
  split; [vm_compute; reflexivity|].
  split. { apply (chk_line false sep_none (fun _ => True)). vm_compute. repeat match goal with |- _ /\ _ => split end; try exact Logic.I; try reflexivity; repeat constructor. }
  split. { rewrite map_map, map_id. apply chk_head. vm_compute. repeat match goal with |- _ /\ _ => split end; try exact Logic.I; try reflexivity; repeat constructor. }
  split. { assert (Ef : fl "1" = fl1) by (vm_compute; reflexivity). change (Forall2 stored_ibm nums [fl "1"]). rewrite Ef. constructor; [|constructor]. split; [reflexivity|]. split; [repeat constructor|].
    exists false, 65%Z, (2 ^ 20)%Z. repeat match goal with |- _ /\ _ => split end; vm_compute; try reflexivity; discriminate. }
  split; [split; [reflexivity|discriminate]|].
  vm_compute. discriminate.
Qed.
Print Assumptions C63_format_refuted.

(** Numbers among whose bytes there is a delimiter line: the block ends there,
    although the header tells the number of bytes. *)
Definition r5 : func58 := Eval vm_compute in
  r58 false false true f_zero (fl "1") (map (fun b => (f_zero, (unpack_f b, f_zero))) [[0; 0; 0; 10]; [32; 32; 32; 32]; [45; 49; 10; 0]]%N).
Definition i5 : bin_id := {| i_order := 1; i_format := 2; i_lines := 11; i_bytes := 12 |}.
Definition nums5 : list bytes := [[0; 0; 0; 10]; [32; 32; 32; 32]; [45; 49; 10; 0]]%N.
Theorem C63_delimiter_refuted : exists i r b, lays_documented i r b /\ delim_line (b_open b) /\ delim_line (b_close b) /\ readable_binary r /\ q_dbl r = false /\
  i_bytes i = (4 * Z.of_nat (length (numbers false r)))%Z /\
  (exists hb nums, b_body b = hb ++ nums /\ Z.of_nat (length nums) = i_bytes i /\ last hb 0%N = LF) /\
  forall u', read_sets (Some (file_of [b])) (view (file_of [b])) SelAll false <> Ok (u', shape_result [read_binary false i r]).
Proof.
  exists i5, r5, (bin_block i5 r5 nums5 []). split; [unfold lays_documented; bin_tac|]. split; [right; right; right; reflexivity|]. split; [right; right; right; reflexivity|].
  split; [split; [reflexivity|discriminate]|]. split; [reflexivity|]. split; [reflexivity|]. split.
  - eexists. exists (concat nums5). split; [unfold bin_block; cbn [b_body]; rewrite app_nil_r; reflexivity|]. split; vm_compute; reflexivity.
  - intros u'. assert (E : match read_sets (Some (file_of [bin_block i5 r5 nums5 []])) (view (file_of [bin_block i5 r5 nums5 []])) SelAll false with
      Ok (_, One d) => dget d (KS "data") = dget (read_binary false i5 r5) (KS "data") | _ => False end -> False) by (vm_compute; tauto || discriminate).
    intro H. apply E. rewrite H. reflexivity.
Qed.
Print Assumptions C63_delimiter_refuted.
