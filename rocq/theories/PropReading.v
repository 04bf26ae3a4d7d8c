(** C62: blocks that any program has laid out in the documented record formats
    are read with the values that stand in them. *)
From Coq Require Import String List NArith ZArith Bool Lia.
Import ListNotations.
From Verif Require Import PyBase PyNum PyVal Utf8 Tools DsNodes DsHeaders DsGroups Ds55 Ds58 Ds2414 Uff Facts IntFacts FloatFacts DecFacts FloatText FloatExact DictFacts
  Scan Container Append ContainerThms Utf8Facts Lines Stored Cells Rows RtNodes RtCs RtHeads RtElems RtGroups RtNodal RtFun RtFunSet RtAnalysis Witness
  PropNodes PropHeads PropGroups PropNodal PropFun PropAnalysis PropHistory Layout PropLayout Reading ReadNodes ReadSets Read55 Read58 Read2414.
From Coq Require Import Lia.
Open Scope string_scope.
Open Scope list_scope.
Open Scope nat_scope.

(** The exponent letter D is understood by three readers. *)
Definition dx_of (x : content) : bool := match x with X164 _ | X2411 _ | X2420 _ => true | _ => false end.
(** Readers that split at blanks need a blank between numbers. *)
Definition need_of (x : content) : bool -> field -> bool :=
  match x with
  | X15 _ => sep_all | X18 _ => sep_ints | X164 _ => sep_reals
  | X82 _ | X2411 _ | X2412 _ | X2414 _ | X2420 _ | X2429 _ _ | X2467 _ => sep_next
  | X55 _ | X58 _ _ | X151 _ | X1858 _ | X2400 _ => sep_none
  end.
(** Readers that cut lines into columns bear only few blanks at the end. *)
Definition room_of (x : content) : list field -> nat -> Prop :=
  match x with X18 _ => room18 | X55 _ => room55 | X58 _ _ => room58 | _ => anyroom end.
Definition presents (x : content) (ls : list str) : Prop := Forall2 (line_of (dx_of x) (need_of x) (room_of x)) ls (documented x).
(** Sets that the readers can take in: sizes of the fixed records, at most one
    line of nodes or values where the reader takes just one. *)
Definition valid_node (n : node) : Prop := f_valid (n_x n) = true /\ f_valid (n_y n) = true /\ f_valid (n_z n) = true.
Definition readable (x : content) : Prop :=
  match x with
  | X15 _ | X18 _ | X82 _ | X151 _ => True
  | X55 r => readable55 r
  | X58 b r => b = false /\ readable58 r
  | X164 u => Forall (fun f => f_valid f = true) [u_len u; u_force u; u_temp u; u_off u]
  | X1858 q => sizes1858 q
  | X2400 h => length (k_mask h) = 32
  | X2411 l => Forall valid_node l
  | X2412 l => readable2412 l
  | X2414 a => readable2414 a
  | X2420 p => Forall (fun s => matv (s_mat s)) (p_cs p)
  | X2429 g es => length (p_sets g) = 6 /\ es <> []
  | X2467 l => readable2467 l
  end.
Definition fun_line (x : content) (l : str) : Prop := match x with X58 _ _ => unmarked l | _ => True end.

Lemma rd_all : forall x block p0 p1 ps ho, utf8_decode block = text_of (p0 :: p1 :: ps) -> lines_ok (p0 :: p1 :: ps) -> fun_line x (whole p1) ->
  presents x (map fst ps) -> readable x -> extract_set (type_of x) block ho = Ok (reading ho x).
Proof.
  intros x block p0 p1 ps ho Hd Hl Hu H Hr. assert (Hb : block_lines block ps) by (exists p0, p1; auto). unfold presents in H.
  destruct x as [l|l|r|b r|t|h|u|q|h|l|l|a|p|g es|l]; cbn [type_of reading dx_of need_of room_of documented readable fun_line] in *.
  - eapply rd15; eassumption.
  - eapply rd18; eassumption.
  - eapply rd55; eassumption.
  - destruct Hr as [-> Hr]. eapply rd58; eassumption.
  - eapply rd82; eassumption.
  - eapply rd151; eassumption.
  - eapply rd164; eassumption.
  - eapply rd1858; eassumption.
  - eapply rd2400; eassumption.
  - eapply rd2411; eassumption.
  - eapply rd2412; eassumption.
  - eapply rd2414; eassumption.
  - eapply rd2420; eassumption.
  - change (read2429 g es) with (read2429s [(g, es)]). apply (rd2429s [(g, es)] block ps ho Hb).
    + unfold doc2429s. cbn [flat_map fst snd]. rewrite app_nil_r. exact H.
    + destruct Hr as [Hr1 Hr2]. split; [constructor; [exact Hr1|constructor]|]. intros g0 pre E. destruct pre as [|? [|? ?]]; inversion E; subst. exact Hr2.
  - eapply rd2467; eassumption.
Qed.

(** The lines of the body of a block: the type line and the records. *)
Definition lays_out (x : content) (b : block) : Prop :=
  exists p1 ps, utf8_decode (b_body b) = text_of (p1 :: ps) /\ lines_ok (p1 :: ps) /\ type_line (type_of x) (fst p1) = true /\
    fun_line x (whole p1) /\ presents x (map fst ps).

Lemma ascii_app : forall a b, Forall (fun c => (c < 128)%N) a -> utf8_decode (a ++ b) = a ++ utf8_decode b.
Proof. intros a b H. induction H as [|c a Hc _ IH]; [reflexivity|]. cbn [app]. rewrite decode_ascii by assumption. f_equal. exact IH. Qed.
Lemma open_text : forall o, delim_line o -> exists p0, o = fst p0 ++ snd p0 /\ no_lb is_lb_str (fst p0) = true /\ line_end (snd p0) /\ Forall (fun c => (c < 128)%N) o.
Proof.
  assert (A : forall o, forallb (fun c => (c <? 128)%N) o = true -> Forall (fun c => (c < 128)%N) o).
  { intros o H. rewrite Forall_forall. intros c Hc. rewrite forallb_forall in H. apply N.ltb_lt. auto. }
  intros o [-> | [-> | [-> | ->]]].
  - exists (TAG, [LF]). repeat split; [left; reflexivity|apply A; reflexivity].
  - exists (TAG, [CR; LF]). repeat split; [right; reflexivity|apply A; reflexivity].
  - exists (TAG ++ repeat blank 74, [LF]). repeat split; [left; reflexivity|apply A; reflexivity].
  - exists (TAG ++ repeat blank 74, [CR; LF]). repeat split; [right; reflexivity|apply A; reflexivity].
Qed.
Lemma decode_high : forall b0 b, (128 <= b0)%N -> exists c r, utf8_decode (b0 :: b) = c :: r /\ (128 <= c)%N.
Proof.
  intros b0 b Hs. rewrite decode_eq. rewrite (proj2 (N.ltb_ge b0 128)) by assumption.
  assert (R : (128 <= REPL)%N) by (unfold REPL; lia).
  destruct ((194 <=? b0) && (b0 <=? 223))%N%bool eqn:E1.
  { apply andb_true_iff in E1 as [E1 _]. apply N.leb_le in E1. destruct b as [|b1 b]; [eauto|]. destruct (is_cont b1) eqn:C1; [|eauto].
    unfold is_cont in C1. apply andb_true_iff in C1 as [C1 _]. apply N.leb_le in C1. do 2 eexists. split; [reflexivity|lia]. }
  destruct ((224 <=? b0) && (b0 <=? 239))%N%bool eqn:E2.
  { apply andb_true_iff in E2 as [E2 _]. apply N.leb_le in E2. destruct b as [|b1 b]; [eauto|]. destruct (ok2_3 b0 b1) eqn:C1; [|eauto].
    destruct b as [|b2 b]; [eauto|]. destruct (is_cont b2) eqn:C2; [|eauto].
    unfold ok2_3 in C1. apply andb_true_iff in C1 as [C1 _]. apply andb_true_iff in C1 as [C1 C3]. do 2 eexists. split; [reflexivity|].
    destruct (N.eqb_spec b0 224); [apply N.leb_le in C3; lia|lia]. }
  destruct ((240 <=? b0) && (b0 <=? 244))%N%bool eqn:E3; [|eauto].
  apply andb_true_iff in E3 as [E3 _]. apply N.leb_le in E3. destruct b as [|b1 b]; [eauto|]. destruct (ok2_4 b0 b1) eqn:C1; [|eauto].
  destruct b as [|b2 b]; [eauto|]. destruct (is_cont b2) eqn:C2; [|eauto]. destruct b as [|b3 b]; [eauto|]. destruct (is_cont b3) eqn:C3; [|eauto].
  unfold ok2_4 in C1. apply andb_true_iff in C1 as [C1 _]. apply andb_true_iff in C1 as [C1 C4]. do 2 eexists. split; [reflexivity|].
  destruct (N.eqb_spec b0 240); [apply N.leb_le in C4; lia|lia].
Qed.
Lemma type_of_line : forall ty body l e t, utf8_decode body = l ++ e ++ t -> line_end e -> type_line ty l = true -> type_in body = ty.
Proof.
  intros ty body l e t Hd He Ht. unfold type_line in Ht. apply andb_true_iff in Ht as [Ha Ht].
  assert (Hn : no_lb is_lb_bytes l = true).
  { unfold no_lb. eapply forallb_impl; [|exact Ha]. intros c Hc. apply andb_true_iff in Hc. tauto. }
  assert (Hi : forall c, is_lb_bytes c = true -> ~ In c l).
  { intros c Hc Hin. unfold no_lb in Hn. rewrite forallb_forall in Hn. specialize (Hn c Hin). rewrite Hc in Hn. discriminate. }
  assert (G : exists c r, is_lb_bytes c = true /\ (c < 128)%N /\ e ++ t = c :: r).
  { destruct He as [-> | ->]; [exists LF, t|exists CR, (LF :: t)]; repeat split. }
  destruct G as (c & r & Hc & Hs & E). rewrite E in Hd. destruct (decode_break c body l r Hs Hd (Hi c Hc)) as (bl & bb & -> & El & _ & _).
  assert (Eb : bl = l).
  { assert (L : forall n bl, length bl <= n -> forallb (fun c => (c <? 128)%N && negb (is_lb_bytes c)) (utf8_decode bl) = true -> utf8_decode bl = bl).
    { clear. induction n as [|n IH]; intros bl Hn H; [destruct bl; [reflexivity|cbn in Hn; lia]|]. destruct bl as [|b0 bl]; [reflexivity|].
      destruct (N.ltb_spec b0 128) as [Hs|Hs].
      - rewrite decode_ascii in * by assumption. f_equal. apply IH; [cbn in Hn; lia|]. cbn [forallb] in H. apply andb_true_iff in H. tauto.
      - exfalso. assert (Q : exists c r, utf8_decode (b0 :: bl) = c :: r /\ (128 <= c)%N).
        { apply decode_high. assumption. }
        destruct Q as (c & r & Eq & Hc). rewrite Eq in H. cbn [forallb] in H. apply andb_true_iff in H as [H _]. apply andb_true_iff in H as [H _]. apply N.ltb_lt in H. lia. }
    rewrite <- El. symmetry. apply (L (length bl)); [lia|]. rewrite El. exact Ha. }
  subst bl. unfold type_in.
  assert (F : first_line (l ++ c :: bb) = l).
  { clear -Hn Hc. induction l as [|a l IH]; [cbn [app first_line]; rewrite Hc; reflexivity|]. cbn [no_lb forallb] in Hn. apply andb_true_iff in Hn as [H1 H2].
    apply negb_true_iff in H1. cbn [app first_line]. rewrite H1. f_equal. apply IH. assumption. }
  rewrite F. destruct (py_int_bytes (firstn 6 l)); [|discriminate]. apply Z.eqb_eq in Ht. assumption.
Qed.

Lemma lays_out_reads : forall x b ho, delim_line (b_open b) -> lays_out x b -> readable x -> reads b ho (reading ho x) /\ type_in (b_body b) = type_of x.
Proof.
  intros x b ho Ho (p1 & ps & Hd & Hl & Ht & Hu & H) Hr. inversion Hl as [|? ? [H1 He] Hl']; subst.
  assert (E : type_in (b_body b) = type_of x).
  { apply (type_of_line _ _ (fst p1) (snd p1) (text_of ps)); [|assumption|assumption]. rewrite Hd. unfold text_of. cbn [map concat]. apply app_assoc_reverse. }
  split; [|exact E]. unfold reads. rewrite E. destruct (open_text _ Ho) as (p0 & Eo & N0 & E0 & A0).
  apply (rd_all x _ p0 p1 ps); try assumption.
  - rewrite ascii_app by assumption. rewrite Hd, Eo. reflexivity.
  - constructor; [split; assumption|exact Hl].
Qed.

Theorem C62_block : forall x b ho, delim_line (b_open b) -> lays_out x b -> readable x ->
  type_in (b_body b) = type_of x /\ extract_set (type_of x) (b_open b ++ b_body b) ho = Ok (reading ho x).
Proof.
  intros x b ho Ho H Hr. destruct (lays_out_reads x b ho Ho H Hr) as [R E]. split; [exact E|]. unfold reads in R. rewrite E in R. exact R.
Qed.
Print Assumptions C62_block.

(** Files of such blocks. *)
Theorem C62_file : forall bs xs ho, Forall framed bs -> Forall2 (fun b x => lays_out x b /\ readable x) bs xs ->
  let u := view (file_of bs) in
  set_types u = map type_of xs /\ n_sets u = length xs /\
  read_sets (Some (file_of bs)) u SelAll ho = Ok (u, shape_result (map (reading ho) xs)) /\
  (forall i x, nth_error xs i = Some x -> read_sets (Some (file_of bs)) u (SelOne (Z.of_nat i)) ho = Ok (u, One (reading ho x))).
Proof.
  intros bs xs ho Hf H u.
  assert (G : Forall2 (fun b o => reads b ho o) bs (map (reading ho) xs) /\ map (fun b => type_in (b_body b)) bs = map type_of xs).
  { clear u. induction H as [|b x bs xs [Hb Hr] _ IH]; [split; [constructor|reflexivity]|]. inversion Hf as [|? ? Hf1 Hf2]; subst. destruct (IH Hf2) as [I1 I2].
    destruct (lays_out_reads x b ho (proj1 Hf1) Hb Hr) as [R E]. split; [constructor; assumption|]. cbn [map]. rewrite E, I2. reflexivity. }
  destruct G as [G1 G2]. destruct (read_blocks bs ho _ Hf G1) as (R1 & R2 & R3 & R4). fold u in R1, R2, R3, R4.
  split; [rewrite R4; exact G2|]. split; [rewrite R3; apply map_length|]. split; [exact R1|].
  intros i x Hi. apply R2. apply map_nth_error. assumption.
Qed.
Print Assumptions C62_file.

(** Several groups of type 2429. *)
Theorem C62_groups : forall l b ho p1 ps, delim_line (b_open b) -> utf8_decode (b_body b) = text_of (p1 :: ps) -> lines_ok (p1 :: ps) ->
  type_line 2429 (fst p1) = true -> Forall2 (line_of false sep_next anyroom) (map fst ps) (doc2429s l) -> readable2429 l ->
  reads b ho (read2429s l).
Proof.
  intros l b ho p1 ps Ho Hd Hl Ht H Hr. inversion Hl as [|? ? [H1 He] Hl']; subst. unfold reads.
  assert (E : type_in (b_body b) = 2429%Z).
  { apply (type_of_line _ _ (fst p1) (snd p1) (text_of ps)); [|assumption|assumption]. rewrite Hd. unfold text_of. cbn [map concat]. apply app_assoc_reverse. }
  rewrite E. destruct (open_text _ Ho) as (p0 & Eo & N0 & E0 & A0). apply (rd2429s l _ ps ho); [|assumption|assumption].
  exists p0, p1. split; [rewrite ascii_app by assumption; rewrite Hd, Eo; reflexivity|]. constructor; [split; assumption|exact Hl].
Qed.
Print Assumptions C62_groups.

(* ------------------------------------------------------------------ *)
(** ** Example: a file of another program *)

Fixpoint trim_left (s : str) : str := match s with c :: r => if (c =? blank)%N then trim_left r else s | [] => [] end.
Definition trim (s : str) : str := rev (trim_left (rev (trim_left s))).
Lemma trim_left_eq : forall s, exists a, s = repeat blank a ++ trim_left s.
Proof.
  induction s as [|c s [a IH]]; [exists 0; reflexivity|]. cbn [trim_left]. destruct (N.eqb_spec c blank) as [->|]; [|exists 0; reflexivity].
  exists (S a). cbn [repeat app]. f_equal. exact IH.
Qed.
Lemma trim_eq : forall s, exists a b, s = repeat blank a ++ trim s ++ repeat blank b.
Proof.
  intro s. destruct (trim_left_eq s) as [a Ea]. destruct (trim_left_eq (rev (trim_left s))) as [b Eb]. exists a, b. rewrite Ea at 1. f_equal.
  unfold trim. rewrite <- (rev_involutive (trim_left s)) at 1. rewrite Eb at 1. rewrite rev_app_distr. f_equal.
  clear. induction b as [|b IH]; [reflexivity|]. cbn [repeat rev]. rewrite IH. clear. induction b as [|b IH]; [reflexivity|]. cbn [repeat app]. f_equal. exact IH.
Qed.
(** Deciding whether a line is laid out as a record. *)
Definition holds_chk (dx : bool) (t : str) (f : field) : Prop :=
  match f with
  | DI w z => length t = w /\ trim t = dec_Z z
  | DR w p x => length t = w /\ forallb (real_char dx) (trim t) = true /\ py_float (map to_e (trim t)) = Ok (rd p x)
  | DA w s => length t = w /\ trim t = s
  | DX w => t = repeat blank w
  | DT w s => t = s /\ length t <= w
  end.
Fixpoint line_chk (dx : bool) (need : bool -> field -> bool) (room : nat -> Prop) (first : bool) (line : str) (fs : list field) : Prop :=
  match fs with
  | [] => line = repeat blank (length line) /\ room (length line)
  | f :: fs' => let w := match f with DT _ s => length s | _ => fwidth f end in
      holds_chk dx (firstn w line) f /\ (if need first f then lead_ws (firstn w line) else True) /\ line_chk dx need room false (skipn w line) fs'
  end.
Lemma chk_holds : forall dx t f, holds_chk dx t f -> holds dx t f.
Proof.
  intros dx t f H. destruct (trim_eq t) as (a & b & E). destruct f; cbn in *.
  - destruct H as [H1 H2]. split; [assumption|]. exists a, b. rewrite <- H2. exact E.
  - destruct H as (H1 & H2 & H3). split; [assumption|]. exists a, b, (trim t). split; [exact E|split; assumption].
  - destruct H as [H1 H2]. split; [assumption|]. exists a, b. rewrite <- H2. exact E.
  - assumption.
  - destruct H as [<- H2]. split; [assumption|]. exists 0. symmetry. apply app_nil_r.
Qed.
Lemma chk_line : forall dx need room first fs line, line_chk dx need room first line fs ->
  exists cols k, line = concat cols ++ repeat blank k /\ columns dx need first cols fs /\ room k.
Proof.
  intros dx need room first fs. revert first. induction fs as [|f fs IH]; intros first line H; cbn [line_chk] in H.
  - destruct H as [H1 H2]. exists [], (length line). split; [exact H1|]. split; [exact Logic.I|exact H2].
  - cbv zeta in H. destruct H as (H1 & H2 & H3). destruct (IH false _ H3) as (cols & k & E & Hc & Hk). set (w := match f with DT _ s => _ | _ => _ end) in *.
    exists (firstn w line :: cols), k. split; [|split; [|assumption]].
    + cbn [concat]. rewrite <- app_assoc, <- E. symmetry. apply firstn_skipn.
    + cbn [columns]. split; [apply chk_holds; assumption|]. split; [|assumption]. intro Q. rewrite Q in H2. exact H2.
Qed.
Fixpoint lines_chk (x : content) (ls : list str) (recs : list (list field)) : Prop :=
  match ls, recs with
  | [], [] => True
  | l :: ls', fs :: recs' => line_chk (dx_of x) (need_of x) (room_of x fs) true l fs /\ lines_chk x ls' recs'
  | _, _ => False
  end.
Lemma chk_presents : forall x ls, lines_chk x ls (documented x) -> presents x ls.
Proof.
  intros x ls. unfold presents. generalize (documented x). induction ls as [|l ls IH]; intros [|fs recs] H; cbn [lines_chk] in H; try contradiction; constructor.
  - exact (chk_line _ _ _ _ _ _ (proj1 H)).
  - apply IH. apply H.
Qed.
Lemma chk_framed : forall b, delim_line (b_open b) -> delim_line (b_close b) -> tags (b_body b ++ b_close b) = [length (b_body b)] -> framed b.
Proof. intros b H1 H2 H. split; [assumption|]. split; [assumption|]. intros i Hi D. apply tags_In in D. rewrite H in D. destruct D as [<-|[]]. lia. Qed.

(** This program leaves a blank before a number where it can and the other
    blanks behind, prints capital exponent letters (D where that is usual),
    right-adjusts texts within a record, ends lines in two blanks and DOS line
    breaks, and extends the delimiters to 80 columns. *)
Definition draw (dx : bool) (f : field) : str :=
  match f with
  | DI w z => if Nat.ltb (length (dec_Z z)) w then ljust w (blank :: dec_Z z) else dec_Z z
  | DR w p x => rjust w (map (fun c => if (c =? 101)%N then (if dx then 68%N else 69%N) else c) (fmt_e false p x))
  | DA w s => rjust w s
  | DX w => repeat blank w
  | DT w s => s
  end.
Definition draw_lines (x : content) : list str :=
  map (fun fs => concat (map (draw (dx_of x)) fs) ++ match x, fs with X18 _, DR _ _ _ :: _ => [] | _, _ => repeat blank 2 end) (documented x).
Definition dos_line (l : str) : str * str := (l, [CR; LF]).
Definition dos_delim : bytes := TAG ++ repeat blank 74 ++ [CR; LF].
Definition type_text (x : content) : str := rjust 6 (dec_Z (type_of x)) ++ repeat blank 10.
Definition dos_text (x : content) : list (str * str) := map dos_line (type_text x :: draw_lines x).
Definition dos_block (x : content) : block :=
  {| b_open := dos_delim; b_body := match utf8_enc (text_of (dos_text x)) with Some b => b | None => [] end; b_close := dos_delim |}.
Definition a_rows (b : ana_body) : ana :=
  a2414 (match b with ANodes _ => 1 | _ => 2 end) 1 2 3 [0; 7; 0; 0; 0; 0; 0; 0]%Z [0; 0; 0; 0; 0; 0; 0; 0]%Z zeros6 zeros6 b.
Definition rows_ex : list (Z * list float) := [(1, map fl ["-1.5"; "2"; "3"]); (22, map fl ["1e99"])]%Z.
Definition rod_elem : elem :=
  {| e_num := 9; e_desc := 21; e_phys := 1; e_mat := 2; e_color := 7; e_count := 2; e_beam := (0, 1, 2); e_nodes := [1; 5] |}%Z.
Definition xs_dos : list content :=
  [X151 h151; X164 u164; X58 false r58_even; X58 false r58_uneven; X2400 h2400; X15 (firstn 2 r15); X18 r18; X55 r55_normal; X55 r55_complex; X82 t82; X2429 g2429 es2429; X1858 q1858;
   X2411 (firstn 2 r2411); X2412 (firstn 4 l2412 ++ [rod_elem]); X2414 a2414_freq; X2414 a2414_on; X2414 (a_rows (ANodes rows_ex)); X2414 (a_rows (AElems rows_ex)); X2420 p2420; X2467 [(g2429, es2467); (g2429, [(7, 1, 0, 0)]%Z)]].
Lemma dos_lays : forall x, utf8_decode (b_body (dos_block x)) = text_of (dos_text x) -> forallb (no_lb is_lb_str) (map fst (dos_text x)) = true ->
  type_line (type_of x) (type_text x) = true -> fun_line x (type_text x ++ [CR; LF]) -> lines_chk x (draw_lines x) (documented x) -> lays_out x (dos_block x).
Proof.
  intros x H1 H2 H3 H4 H5. exists (dos_line (type_text x)), (map dos_line (draw_lines x)). split; [exact H1|]. split.
  - unfold lines_ok. rewrite Forall_forall. intros p Hp. assert (Hf : In (fst p) (map fst (dos_text x))) by (apply in_map; exact Hp). rewrite forallb_forall in H2. split; [apply H2; exact Hf|].
    change (In p (map dos_line (type_text x :: draw_lines x))) in Hp. apply in_map_iff in Hp as (l & <- & _). right. reflexivity.
  - split; [exact H3|]. split; [exact H4|]. apply chk_presents. rewrite map_map. rewrite map_id. exact H5.
Qed.
Ltac lays := apply dos_lays; [vm_compute; reflexivity|vm_compute; reflexivity|vm_compute; reflexivity|vm_compute; first [exact Logic.I|reflexivity]|];
  vm_compute; repeat match goal with |- _ /\ _ => split end; try exact Logic.I; try reflexivity; repeat constructor.

Example C62_example : Forall framed (map dos_block xs_dos) /\ Forall2 (fun b x => lays_out x b /\ readable x) (map dos_block xs_dos) xs_dos.
Proof.
  split.
  - unfold xs_dos. cbn [map]. repeat (apply Forall_cons; [apply chk_framed; [right; right; right; reflexivity|right; right; right; reflexivity|vm_compute; reflexivity]|]). apply Forall_nil.
  - unfold xs_dos. cbn [map]. repeat (apply Forall2_cons; [split; [lays|]|]); [..|apply Forall2_nil].
    all: cbn [readable]; try exact Logic.I. all: try (split; [reflexivity|]).
    all: unfold readable55, readable58, readable2412, readable2414, readable2467, sizes1858, valid_node, matv, fin_modes; cbn; repeat split; repeat constructor; try reflexivity; try discriminate; try lia.
Qed.

(* ------------------------------------------------------------------ *)
(** ** Layouts that keep the documented formats and are not read *)

(** The documented columns and nothing else asked. *)
Definition laid (x : content) (ls : list str) : Prop := Forall2 (line_of (dx_of x) sep_none anyroom) ls (documented x).
Definition misread (x : content) (ps : list (str * str)) : Prop :=
  (exists p1 qs, ps = p1 :: qs /\ type_line (type_of x) (fst p1) = true /\ fun_line x (whole p1) /\ laid x (map fst qs)) /\
  lines_ok ps /\ Forall (fun p => Forall (fun c => (c < 128)%N) (fst p)) ps /\
  extract_set (type_of x) (TLINE ++ text_of ps) false <> Ok (reading false x).
Definition out_text (w : nat) (x : content) : list (str * str) :=
  map (fun l => (ljust w l, [LF])) (type_text x :: map (fun fs => concat (map (draw (dx_of x)) fs)) (documented x)).
Fixpoint laid_chk (dx : bool) (ls : list str) (recs : list (list field)) : Prop :=
  match ls, recs with
  | [], [] => True
  | l :: ls', fs :: recs' => line_chk dx sep_none (fun _ => True) true l fs /\ laid_chk dx ls' recs'
  | _, _ => False
  end.
Lemma chk_laid : forall x ls, laid_chk (dx_of x) ls (documented x) -> laid x ls.
Proof.
  intros x ls. unfold laid. generalize (documented x). induction ls as [|l ls IH]; intros [|fs recs] H; cbn [laid_chk] in H; try contradiction; constructor.
  - exact (chk_line _ _ _ _ _ _ (proj1 H)).
  - apply IH. apply H.
Qed.
Lemma misread_chk : forall x w, type_line (type_of x) (ljust w (type_text x)) = true -> fun_line x (ljust w (type_text x) ++ [LF]) ->
  laid_chk (dx_of x) (map fst (tl (out_text w x))) (documented x) ->
  forallb (fun p => no_lb is_lb_str (fst p) && forallb (fun c => (c <? 128)%N) (fst p)) (out_text w x) = true ->
  extract_set (type_of x) (TLINE ++ text_of (out_text w x)) false <> Ok (reading false x) -> misread x (out_text w x).
Proof.
  intros x w H1 H2 H3 H4 H5. unfold misread. split; [|split; [|split; [|exact H5]]].
  - eexists. exists (tl (out_text w x)). split; [reflexivity|]. split; [exact H1|]. split; [exact H2|]. apply chk_laid. exact H3.
  - unfold lines_ok. rewrite Forall_forall. intros p Hp. rewrite forallb_forall in H4. assert (H := H4 p Hp). apply andb_true_iff in H as [H _]. split; [exact H|].
    unfold out_text in Hp. apply in_map_iff in Hp as (l & <- & _). left. reflexivity.
  - rewrite Forall_forall. intros p Hp. rewrite forallb_forall in H4. assert (H := H4 p Hp). apply andb_true_iff in H as [_ H].
    rewrite Forall_forall. intros c Hc. rewrite forallb_forall in H. apply N.ltb_lt. auto.
Qed.
Ltac misread_tac := apply misread_chk; [vm_compute; reflexivity|vm_compute; first [exact Logic.I|reflexivity]
  |vm_compute; repeat match goal with |- _ /\ _ => split end; try exact Logic.I; try reflexivity; repeat constructor|vm_compute; reflexivity|vm_compute; discriminate].

(** Nodes continued on a second line. *)
Definition brick : elem := {| e_num := 1; e_desc := 116; e_phys := 1; e_mat := 2; e_color := 7; e_count := 20; e_beam := (0, 1, 2)%Z; e_nodes := brick_nodes |}.
Theorem C62_nodes_refuted : exists e ps, 8 < length (e_nodes e) /\ misread (X2412 [e]) ps.
Proof. exists brick, (out_text 0 (X2412 [brick])). split; [vm_compute; repeat constructor|]. misread_tac. Qed.
Print Assumptions C62_nodes_refuted.
(** Values continued on a second line. *)
Definition a_seven : ana := a_rows (ANodes [(1, map fl ["1"; "2"; "3"; "4"; "5"; "6"; "7"])]%Z).
Theorem C62_values_refuted : exists a rows w ps, n_body a = ANodes rows /\ In w rows /\ 6 < length (snd w) /\ misread (X2414 a) ps.
Proof.
  exists a_seven. do 2 eexists. exists (out_text 0 (X2414 a_seven)). split; [reflexivity|]. split; [left; reflexivity|]. split; [vm_compute; repeat constructor|]. misread_tac.
Qed.
Print Assumptions C62_values_refuted.
(** Numbers that fill their columns. *)
Definition t_wide : trace := {| t_num := 1; t_id := lit "wide"; t_color := 3; t_nodes := [1234567890; 1234567891]%Z |}.
Theorem C62_adjacent_refuted : exists t ps, misread (X82 t) ps.
Proof. exists t_wide, (out_text 0 (X82 t_wide)). misread_tac. Qed.
Print Assumptions C62_adjacent_refuted.
(** Lines padded with blanks to 80 columns. *)
Definition r58_five : func58 := r58 false true true (float_of_Z 5) (float_of_Z 2) (combine (map float_of_Z [5; 7; 9; 11; 13]%Z) (map (fun f => (f, f_zero)) (map fl ["1"; "2"; "3"; "4"; "5"]))).
Definition wide (ps : list (str * str)) : Prop := Forall (fun p => length (fst p) = 80) ps.
Theorem C62_padded_refuted : exists l r q, 
  (exists ps, wide ps /\ misread (X18 l) ps) /\ (exists ps, wide ps /\ misread (X55 r) ps) /\ (exists ps, wide ps /\ misread (X58 false q) ps).
Proof.
  exists r18, r55_normal, r58_five. split; [|split]; [exists (out_text 80 (X18 r18))|exists (out_text 80 (X55 r55_normal))|exists (out_text 80 (X58 false r58_five))];
    (split; [vm_compute; repeat constructor|misread_tac]).
Qed.
Print Assumptions C62_padded_refuted.
(** The last group is lost when it is empty. *)
Theorem C62_empty_refuted : exists g ps, misread (X2429 g []) ps.
Proof. exists g2429, (out_text 0 (X2429 g2429 [])). misread_tac. Qed.
Print Assumptions C62_empty_refuted.
(** Two groups in one data set; an empty group that is not the last is kept. *)
Definition gs_ex : list (group * list (Z * Z)) := [(g2429, []); (g2429, [(8, 1); (7, -1234)])]%Z.
Definition gs_text : list (str * str) :=
  map (fun l => (l, [LF])) (rjust 6 (dec_Z 2429) :: map (fun fs => concat (map (draw false) fs)) (doc2429s gs_ex)).
Fixpoint recs_chk (ls : list str) (recs : list (list field)) : Prop :=
  match ls, recs with
  | [], [] => True
  | l :: ls', fs :: recs' => line_chk false sep_next (fun _ => True) true l fs /\ recs_chk ls' recs'
  | _, _ => False
  end.
Lemma chk_recs : forall recs ls, recs_chk ls recs -> Forall2 (line_of false sep_next anyroom) ls recs.
Proof.
  induction recs as [|fs recs IH]; intros [|l ls] H; cbn [recs_chk] in H; try contradiction; constructor.
  - exact (chk_line _ _ _ _ _ _ (proj1 H)).
  - apply IH. apply H.
Qed.
Example C62_groups_example : exists p1 ps, gs_text = p1 :: ps /\ lines_ok (p1 :: ps) /\ utf8_decode (text_of gs_text) = text_of (p1 :: ps) /\ type_line 2429 (fst p1) = true /\
  Forall2 (line_of false sep_next anyroom) (map fst ps) (doc2429s gs_ex) /\ readable2429 gs_ex.
Proof.
  do 2 eexists. split; [reflexivity|]. split; [|split; [vm_compute; reflexivity|split; [reflexivity|split]]].
  - vm_compute. repeat (apply Forall_cons; [split; [reflexivity|left; reflexivity]|]). apply Forall_nil.
  - apply chk_recs. vm_compute. repeat match goal with |- _ /\ _ => split end; try exact Logic.I; try reflexivity; repeat constructor.
  - split; [repeat constructor|]. intros g pre E. destruct pre as [|? [|? [|? ?]]]; inversion E; subst. discriminate.
Qed.
