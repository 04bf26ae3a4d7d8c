(** Reading documented blocks of the types 2412, 2429, 2467. *)
From Coq Require Import String List NArith ZArith Bool Lia.
Import ListNotations.
From Verif Require Import PyBase PyNum PyVal Utf8 Tools DsNodes DsHeaders DsGroups Ds55 Ds58 Ds2414 Uff Facts IntFacts FloatFacts DecFacts FloatText FloatExact DictFacts
  Scan Container Append ContainerThms Utf8Facts Lines Stored Cells Rows RtNodes RtCs RtHeads RtElems RtGroups RtNodal RtFun RtFunSet RtAnalysis Witness
  PropNodes PropHeads PropGroups PropNodal PropFun PropAnalysis PropHistory Layout PropLayout Reading ReadNodes.
From Coq Require Import Lia.
Open Scope string_scope.
Open Scope list_scope.
Open Scope nat_scope.

(** The integers of a line. *)
Lemma toks_dec : forall dx toks l, Forall2 (tok dx) toks (I10s l) -> toks = map dec_Z l.
Proof.
  intros dx toks l H. unfold I10s in H. remember (map (DI 10) l) as fs eqn:E. revert l E. induction H as [|s f toks fs Hs _ IH]; intros [|z l] E; inversion E; subst; [reflexivity|].
  cbn [map]. f_equal; [exact Hs|]. apply IH. reflexivity.
Qed.
Lemma split_tail : forall s e, forallb is_ws e = true -> split (s ++ e) = split s.
Proof.
  intros s e He. rewrite split_app_lead; [|destruct e as [|c e]; [exact Logic.I|cbn [forallb] in He; apply andb_true_iff in He; apply He]].
  unfold split at 2. rewrite split_by_ws_nil by assumption. apply app_nil_r.
Qed.
Lemma line_split : forall dx room line l e, line_of dx sep_next room line (I10s l) -> forallb is_ws e = true -> split (line ++ e) = map dec_Z l.
Proof.
  intros dx room line l e (cols & k & -> & Hc & _) He. rewrite split_tail by assumption. rewrite split_trail.
  destruct (cols_split _ _ _ _ _ Hc) as (toks & -> & Ht); [apply I10s_nums|apply I10s_nums|]. eapply toks_dec. exact Ht.
Qed.
Lemma line_small : forall dx need room line l, line_of dx need room line (I10s l) -> Forall (fun z => int64_ok z = true) l.
Proof.
  intros dx need room line l (cols & k & _ & Hc & _). remember true as first eqn:E in Hc. clear E. unfold I10s in Hc. revert first l Hc.
  induction cols as [|t cols IH]; intros first [|z l] Hc; cbn [map columns] in Hc; try contradiction; [constructor|].
  destruct Hc as ((Hl & a & b & ->) & _ & Hc). constructor; [|eapply IH; exact Hc].
  rewrite !app_length in Hl. assert (Hd : length (dec_Z z) <= 10) by lia. apply (proj1 (dec_Z_length z 10 ltac:(lia))) in Hd.
  unfold int64_ok. apply andb_true_iff. split; [apply Z.leb_le|apply Z.ltb_lt]; cbn in Hd |- *; lia.
Qed.

(* ------------------------------------------------------------------ *)
(** ** 2412 *)

Definition readable2412 (l : list elem) : Prop := Forall (fun e => few 8 (e_nodes e)) l.
Lemma beams_doc : forall e, (let '(a, b, c) := e_beam e in [a; b; c]) = beams e.
Proof. intro e. unfold beams. destruct (e_beam e) as [[a b] c]. reflexivity. Qed.
Lemma read_elem' : forall e r,
  read_elem2412 (map dec_Z (attrs e)) ((if is_beam e then [map dec_Z (beams e)] else []) ++ [map dec_Z (e_nodes e)] ++ r) = Ok (elem_out e, e_desc e, r).
Proof.
  intros e r. unfold read_elem2412, tok_int, ln, attrs. cbn [map nth_error of_option rbind].
  rewrite !py_int_dec. cbn [rbind]. rewrite beam_rod. unfold elem_out, beams. destruct (is_beam e).
  - destruct (e_beam e) as [[a b] c]. cbn [map app nth_error of_option rbind]. rewrite !py_int_dec. cbn [rbind]. rewrite parse_ints_dec. reflexivity.
  - cbn [app]. rewrite parse_ints_dec. reflexivity.
Qed.
Lemma loop_rd : forall es l fuel, readable2412 es -> length es <= fuel -> loop2412 fuel (flat_map elem_toks es) (typed l) = Ok (typed (l ++ es)).
Proof.
  induction es as [|e es IH]; intros l fuel H Hf; [rewrite app_nil_r; destruct fuel; reflexivity|].
  inversion H as [|? ? He Hes]; subst. destruct fuel as [|fuel]; [cbn in Hf; lia|]. cbn [flat_map elem_toks app loop2412].
  rewrite <- !app_assoc. cbn [app].
  change ((if is_beam e then [map dec_Z (beams e)] else []) ++ map dec_Z (e_nodes e) :: flat_map elem_toks es)
    with ((if is_beam e then [map dec_Z (beams e)] else []) ++ [map dec_Z (e_nodes e)] ++ flat_map elem_toks es).
  rewrite read_elem'. cbn [rbind]. rewrite add_typed. rewrite IH by (assumption || (cbn in Hf; lia)).
  rewrite <- app_assoc. reflexivity.
Qed.
Lemma rd2412 : forall l block ps ho, block_lines block ps -> Forall2 (line_of false sep_next anyroom) (map fst ps) (flat_map doc2412 l) ->
  readable2412 l -> extract_set 2412 block ho = Ok (read2412 l).
Proof.
  intros l block ps ho Hb H Hr. open_block Hb. unfold extract2412. rewrite block_drop by assumption. clear Eb Hl. cbv zeta. cbn [map skipn].
  assert (Es : map split (@map (str * str) str (@fst str str) ps) = flat_map elem_toks l).
  { revert H. generalize (@map (str * str) str (@fst str str) ps). intros ls H. clear -H Hr.
    destruct (Forall2_flat _ _ _ _ _ _ _ H) as (lss & -> & H2). clear H. revert Hr. induction H2 as [|ls e lss l He _ IH]; intro Hr; [reflexivity|].
    inversion Hr as [|? ? Hf Hr']; subst. cbn [concat flat_map]. etransitivity; [apply map_app|]. f_equal; [|apply IH; assumption]. clear -He Hf.
    unfold doc2412 in He. rewrite rows_few in He by assumption. cbn [map] in He.
    assert (G : forall ls zs, Forall2 (line_of false sep_next anyroom) ls (map I10s zs) -> map split ls = map (map dec_Z) zs).
    { clear. intros ls zs H. remember (map I10s zs) as rs eqn:E. revert zs E. induction H as [|x r ls rs Hx _ IH]; intros [|z zs] E; inversion E; subst; [reflexivity|].
      cbn [map]. f_equal; [|apply IH; reflexivity]. rewrite <- (app_nil_r x). eapply line_split; [exact Hx|reflexivity]. }
    unfold elem_toks. rewrite <- (app_nil_l (_ :: _)). rewrite beams_doc in He. destruct (is_beam e).
    - apply (G ls [attrs e; beams e; e_nodes e]). exact He.
    - apply (G ls [attrs e; e_nodes e]). exact He. }
  match goal with |- context [map split ?x] => change (map split x) with (map split (@map (str * str) str (@fst str str) ps)) end. rewrite Es.
  assert (Hlen : length l <= length (flat_map elem_toks l)).
  { clear. induction l as [|e l IH]; [cbn; lia|]. cbn [flat_map length]. rewrite app_length. unfold elem_toks at 1. cbn [length]. lia. }
  change [(KS "type", VInt 2412)] with (typed []). rewrite loop_rd by assumption. cbn [app rbind].
  assert (L1 := legacy_ok l [] 41 "triangle" eq_refl). rewrite !app_nil_r in L1. cbn [app] in L1.
  rewrite L1 by (apply dget_typed_name; discriminate). cbn [rbind].
  rewrite legacy_ok.
  - cbn [try_any]. unfold read2412, typed. rewrite <- app_comm_cons. reflexivity.
  - unfold legacy2412. destruct (with_desc 41 l); reflexivity.
  - rewrite dget_app, dget_typed_name by discriminate. unfold legacy2412. destruct (with_desc 41 l); reflexivity.
Qed.

(* ------------------------------------------------------------------ *)
(** ** Groups *)

(** The lines are taken with or without their line breaks. *)
Definition tailed (h : str * str -> str) : Prop := forall p, line_end (snd p) -> exists e, h p = fst p ++ e /\ forallb is_ws e = true.
Lemma tailed_whole : tailed whole.
Proof. intros p He. exists (snd p). split; [reflexivity|]. apply line_end_ws. assumption. Qed.
Lemma tailed_fst : tailed (@fst str str).
Proof. intros p _. exists []. split; [symmetry; apply app_nil_r|reflexivity]. Qed.
Lemma name_rd : forall dx need room line s e, line_of dx need room line [DT 40 s] -> forallb is_ws e = true ->
  group_name_rec (line ++ e) = Ok [(KS "group_name", VStr (strip (firstn 40 s)))].
Proof.
  intros dx need room line s tail (cols & n & -> & Hc & _) Ht. destruct cols as [|t [|? ?]]; cbn [columns] in Hc; try contradiction; [|destruct Hc as (_ & _ & [])].
  destruct Hc as ((Hl & b & ->) & _). cbn [concat]. rewrite app_nil_r. rewrite app_length in Hl. unfold group_name_rec.
  rewrite (header_fields _ _ _ _ _ [strip (firstn 40 s)] [Some (VStr (strip (firstn 40 s)))]); try reflexivity.
  - cbn [cut_fields]. f_equal. destruct (extend80_app (((s ++ repeat blank b) ++ repeat blank n) ++ tail)) as [m ->].
    rewrite !(firstn_short _ 40 s) by lia. rewrite <- !app_assoc. rewrite firstn_app. rewrite (firstn_short _ 40 s) by lia.
    apply strip_by_post. apply forallb_firstn. rewrite !forallb_app, !blanks_ws, Ht. reflexivity.
  - constructor; [|constructor]. reflexivity.
Qed.
Lemma head_rd : forall need room line g n e, line_of false need room line (I10s (p_num g :: p_sets g ++ [Z.of_nat n])) -> forallb is_ws e = true -> length (p_sets g) = 6 ->
  exists g1, group_header (line ++ e) = Ok g1 /\ dupdate g1 [(KS "group_name", VStr (strip (firstn 40 (RtGroups.p_name g))))] = group_out g (Z.of_nat n).
Proof.
  intros need room line g n e Hl He W3. unfold group_out. destruct (p_sets g) as [|a [|b [|c [|d [|e' [|f [|? ?]]]]]]]; try discriminate.
  eexists. split; [|]. { unfold group_header. apply (header_line need room _ _ e _ _ _ Hl He); try reflexivity. }
  reflexivity.
Qed.
Lemma rows_up_of : forall A k (l : list A), 0 < k -> length (rows_of k l) = rows_up k (length l).
Proof. intros A k l Hk. rewrite <- chunks_rows by assumption. apply chunks_length. Qed.
Lemma rows_count : forall k c (ents : list (list Z)), 0 < k -> k * c = 8 -> Forall (fun e => length e = c) ents ->
  length (rows_of 8 (concat ents)) = rows_up k (length ents).
Proof.
  intros k c ents Hk Hc He. rewrite rows_up_of by lia. rewrite (concat_length_const _ c) by assumption. unfold rows_up. assert (Hc' : 0 < c) by nia.
  replace 8 with (k * c) by assumption. assert (D := Nat.div_mod (length ents + (k - 1)) k ltac:(lia)). assert (M := Nat.mod_upper_bound (length ents + (k - 1)) k ltac:(lia)).
  set (q := (length ents + (k - 1)) / k) in *. set (r := (length ents + (k - 1)) mod k) in *.
  symmetry. apply Nat.div_unique with (r := r * c + (c - 1)); nia.
Qed.
Lemma group_rd : forall h k c g ents (pre post : list str) qs, tailed h -> 0 < k -> k * c = 8 -> Forall (fun e => length e = c) ents -> length (p_sets g) = 6 ->
  lines_ok qs -> Forall2 (line_of false sep_next anyroom) (map fst qs) (doc_group g ents) ->
  let lines := pre ++ map h qs ++ post in
  let li := Z.of_nat (length pre) in
  let last := (ceil_div (Z.of_nat (length ents)) (Z.of_nat k) + li + 2)%Z in
  (exists g1, (do l0 <- py_nth lines li ;; group_header l0) = Ok g1 /\
    dupdate g1 [(KS "group_name", VStr (strip (firstn 40 (RtGroups.p_name g))))] = group_out g (Z.of_nat (length ents))) /\
  (do l1 <- py_nth lines (li + 1) ;; group_name_rec l1) = Ok [(KS "group_name", VStr (strip (firstn 40 (RtGroups.p_name g))))] /\
  line_ints (py_slice (li + 2) last lines) = Ok (concat ents) /\
  last = Z.of_nat (length pre + length qs) /\ length qs = 2 + rows_up k (length ents).
Proof.
  intros h k c g ents pre post qs Hh Hk Hc He W Hl H lines li last. unfold doc_group in H. cbn [app] in H.
  assert (El : length qs = 2 + rows_up k (length ents)).
  { apply Forall2_len in H. rewrite map_length in H. cbn [length] in H. rewrite map_length, (rows_count k c) in H by assumption. exact H. }
  assert (Elast : last = Z.of_nat (length pre + length qs)).
  { unfold last, li. rewrite rows_up_ceil by assumption. rewrite El. lia. }
  split; [|split; [|split; [|split; assumption]]].
  - destruct qs as [|p qs]; [inversion H|]. inversion H as [|? ? ? ? H1 _]; subst. inversion Hl as [|? ? [_ L1] _]; subst. unfold lines, li. cbn [map].
    destruct (Hh p L1) as (e & Ee & Hw). rewrite (py_nth_ok _ _ (length pre) (h p)).
    2:{ rewrite nth_error_app2, Nat.sub_diag by lia. reflexivity. }
    cbn [rbind]. rewrite Ee. eapply head_rd; eassumption.
  - destruct qs as [|p [|p1 qs]]; [inversion H|inversion H as [|? ? ? ? ? H']; inversion H'|]. inversion H as [|? ? ? ? _ H']; subst. inversion H' as [|? ? ? ? H1 _]; subst.
    inversion Hl as [|? ? _ Hl']; subst. inversion Hl' as [|? ? [_ L1] _]; subst. unfold lines, li. cbn [map].
    destruct (Hh p1 L1) as (e & Ee & Hw).
    replace (Z.of_nat (length pre) + 1)%Z with (Z.of_nat (length pre + 1)) by lia.
    rewrite (py_nth_ok _ _ (length pre + 1) (h p1)).
    2:{ rewrite nth_error_app2 by lia. replace (length pre + 1 - length pre) with 1 by lia. reflexivity. }
    cbn [rbind]. rewrite Ee. eapply name_rd; eassumption.
  - rewrite Elast. destruct qs as [|p [|p1 qs]]; [inversion H|inversion H as [|? ? ? ? ? H']; inversion H'|]. inversion H as [|? ? ? ? _ H']; subst. inversion H' as [|? ? ? ? _ H2]; subst.
    inversion Hl as [|? ? _ Hl']; subst. inversion Hl' as [|? ? _ Hl2]; subst. clear H H' Hl Hl' Elast El. unfold lines, li. cbn [map length].
    set (mid := map h qs).
    replace (pre ++ (h p :: h p1 :: mid) ++ post) with ((pre ++ [h p; h p1]) ++ mid ++ post) by (rewrite <- app_assoc; reflexivity).
    replace (Z.of_nat (length pre) + 2)%Z with (Z.of_nat (length (pre ++ [h p; h p1]))) by (rewrite app_length; cbn [length]; lia).
    assert (E2 : length pre + S (S (length qs)) = length (pre ++ [h p; h p1]) + length mid) by (unfold mid; rewrite app_length, map_length; cbn [length]; lia).
    rewrite E2. rewrite slice_mid. unfold mid, line_ints, rmap. rewrite map_map.
    assert (G : rseq (map (fun x => parse_ints (split (h x))) qs) = Ok (rows_of 8 (concat ents)) /\ Forall (Forall (fun z => int64_ok z = true)) (rows_of 8 (concat ents))).
    { clear -H2 Hl2 Hh. revert H2. generalize (rows_of 8 (concat ents)). intros rows H2. revert rows H2 Hl2.
      induction qs as [|q qs IH]; intros [|r rows] H Hl; cbn [map] in H; inversion H as [|? ? ? ? H1 H']; subst; [split; [reflexivity|constructor]|].
      inversion Hl as [|? ? [_ L1] Hl']; subst. destruct (IH _ H' Hl') as [G1 G2]. destruct (Hh q L1) as (e & Ee & Hw). split.
      - cbn [map rseq]. rewrite Ee. rewrite (line_split _ _ _ _ _ H1 Hw), parse_ints_dec. cbn [rbind]. rewrite G1. reflexivity.
      - constructor; [eapply line_small; exact H1|assumption]. }
    destruct G as [-> G2]. cbn [rbind]. rewrite rows_concat by lia. unfold np_int_array.
    replace (forallb int64_ok (concat ents)) with true; [reflexivity|]. symmetry. apply forallb_forall. intros z Hz.
    rewrite <- (rows_concat _ 8 (concat ents)) in Hz by lia. apply in_concat in Hz as (r & Hr & Hz). rewrite Forall_forall in G2. specialize (G2 r Hr). rewrite Forall_forall in G2. auto.
Qed.

(** 2467: any number of groups, with any number of entities. *)
Definition ents4 (es : list ent4) : list (list Z) := map (fun '(code, tag, leaf, comp) => [code; tag; leaf; comp]) es.
Lemma ents4_cells : forall es, concat (ents4 es) = flat_map cells4 es.
Proof. intro es. unfold ents4. rewrite flat_map_concat_map. f_equal. apply map_ext. intros [[[a b] c] d]. reflexivity. Qed.
Definition readable2467 (l : list (group * list ent4)) : Prop := Forall (fun g => length (p_sets (fst g)) = 6) l.
Lemma loop2467_rd : forall gs ps (pre : list str) acc fuel, readable2467 gs -> lines_ok ps -> Forall2 (line_of false sep_next anyroom) (map fst ps) (doc2467 gs) -> length gs <= fuel ->
  loop2467 fuel (pre ++ map whole ps) (Z.of_nat (length pre)) acc = Ok (acc ++ map (fun g => VDict (out2467 g)) gs).
Proof.
  induction gs as [|[g es] gs IH]; intros ps pre acc fuel Hw Hl H Hf.
  - unfold doc2467 in H. cbn [flat_map] in H. apply line_none in H. subst ps. cbn [map]. rewrite !app_nil_r. destruct fuel; cbn [loop2467]; rewrite Z.ltb_irrefl; reflexivity.
  - inversion Hw as [|? ? W1 Hws]; subst. cbn [fst snd] in *. destruct fuel as [|fuel]; [cbn in Hf; lia|].
    unfold doc2467 in H. cbn [flat_map fst snd] in H. fold (doc2467 gs) in H. fold (ents4 es) in H.
    assert (G : exists qs rs, ps = qs ++ rs /\ lines_ok qs /\ lines_ok rs /\ Forall2 (line_of false sep_next anyroom) (map fst qs) (doc_group g (ents4 es)) /\
      Forall2 (line_of false sep_next anyroom) (map fst rs) (doc2467 gs)).
    { apply Forall2_app_inv_r in H as (l1 & l2 & H1 & H2 & E). apply map_eq_app in E as (qs & rs & -> & <- & <-). exists qs, rs.
      unfold lines_ok in *. apply Forall_app in Hl as [Hl1 Hl2]. auto. }
    destruct G as (qs & rs & -> & Lq & Lr & Hq & Hr). rewrite map_app.
    assert (E4 : Forall (fun e => length e = 4) (ents4 es)) by (unfold ents4; rewrite Forall_map, Forall_forall; intros [[[? ?] ?] ?] _; reflexivity).
    destruct (group_rd whole 2 4 g (ents4 es) pre (map whole rs) qs tailed_whole ltac:(lia) eq_refl E4 W1 Lq Hq) as ((g1 & G1 & G2) & G3 & G4 & G5 & G6).
    set (lines := pre ++ _ ++ _) in *. cbn [loop2467].
    match goal with |- (if ?b then _ else _) = _ => assert (Hlt : b = true) end.
    { apply Z.ltb_lt. unfold lines. rewrite !app_length, !map_length. unfold str in *. lia. }
    rewrite Hlt. destruct (py_nth lines (Z.of_nat (length pre))) as [l0|]; [|discriminate]. cbn [rbind] in G1 |- *. rewrite G1. cbn [rbind].
    destruct (py_nth lines (Z.of_nat (length pre) + 1)) as [l1|]; [|discriminate]. cbn [rbind] in G3 |- *. rewrite G3. cbn [rbind].
    rewrite G2. assert (El4 : length (ents4 es) = length es) by apply map_length. rewrite El4 in *.
    rewrite group_out_count by exact W1. cbn [rbind]. change (Z.of_nat 2) with 2%Z in *. rewrite G4. cbn [rbind]. rewrite G5. rewrite ents4_cells.
    destruct (every4 es) as (-> & -> & -> & ->).
    replace (Z.of_nat (length pre + length qs)) with (Z.of_nat (length (pre ++ map whole qs))) by (rewrite app_length, map_length; reflexivity).
    unfold lines. rewrite app_assoc. rewrite IH by (assumption || (cbn in Hf; lia)).
    rewrite <- app_assoc. cbn [app map]. do 3 f_equal.
    unfold out2467, group_out. cbn [fst snd].
    destruct (p_sets g) as [|a [|b [|c [|d [|e [|f [|? ?]]]]]]]; try discriminate. reflexivity.
Qed.
Lemma doc2467_len : forall l, length l <= length (doc2467 l).
Proof. induction l as [|g l IH]; [cbn; lia|]. unfold doc2467 in *. cbn [flat_map length]. rewrite app_length. unfold doc_group at 1. cbn [app length]. lia. Qed.
Lemma rd2467 : forall l block ps ho, block_lines block ps -> Forall2 (line_of false sep_next anyroom) (map fst ps) (doc2467 l) ->
  readable2467 l -> extract_set 2467 block ho = Ok (read2467 l).
Proof.
  intros l block ps ho Hb H Hr. open_block Hb. unfold extract2467, extract2467_fuel. rewrite block_keep by assumption. clear Eb. cbv zeta. cbn [skipn].
  apply lines_tail, lines_tail in Hl.
  match goal with |- context [loop2467 ?f _ _ _] => assert (L := loop2467_rd l ps [] [] f Hr Hl H) end. cbn [app length Z.of_nat] in L |- *.
  match goal with |- context [loop2467 ?f ?x ?z ?y] => match type of L with _ -> loop2467 ?f' ?x' ?z' ?y' = _ => change (loop2467 f x z y) with (loop2467 f' x' z' y') end end.
  rewrite L; [reflexivity|]. apply Forall2_len in H. assert (Hd := doc2467_len l). rewrite map_length in H |- *. unfold str in *. lia.
Qed.

(** 2429: any number of groups; only the last one must have an entity. *)
Definition ents2 (es : list (Z * Z)) : list (list Z) := map (fun e => [fst e; snd e]) es.
Lemma ents2_cells : forall es, concat (ents2 es) = flat_map cells2 es.
Proof. intro es. unfold ents2. rewrite flat_map_concat_map. reflexivity. Qed.
Definition doc2429s (l : list (group * list (Z * Z))) : list (list field) := flat_map (fun g => doc2429 (fst g) (snd g)) l.
Definition out2429 (g : group * list (Z * Z)) : dict :=
  group_out (fst g) (Z.of_nat (length (snd g))) ++ [(KS "entity_type_code", vints (map fst (snd g))); (KS "entity_tag", vints (map snd (snd g)))].
Definition readable2429 (l : list (group * list (Z * Z))) : Prop :=
  Forall (fun g => length (p_sets (fst g)) = 6) l /\ (forall g pre, l = pre ++ [g] -> snd g <> []).
Lemma doc2429s_len : forall l, 2 * length l <= length (doc2429s l).
Proof. induction l as [|g l IH]; [cbn; lia|]. unfold doc2429s, doc2429 in *. cbn [flat_map length]. rewrite app_length. unfold doc_group at 1. cbn [app length]. lia. Qed.
Lemma loop2429_rd : forall gs ps (pre : list str) acc fuel, readable2429 gs -> lines_ok ps -> Forall2 (line_of false sep_next anyroom) (map fst ps) (doc2429s gs) -> length gs <= fuel ->
  loop2429 fuel (pre ++ map (@fst str str) ps) (Z.of_nat (length pre)) acc = Ok (acc ++ map (fun g => VDict (out2429 g)) gs).
Proof.
  induction gs as [|[g es] gs IH]; intros ps pre acc fuel Hw Hl H Hf.
  - unfold doc2429s in H. cbn [flat_map] in H. apply line_none in H. subst ps. cbn [map]. rewrite !app_nil_r.
    destruct fuel; cbn [loop2429]; (rewrite (proj2 (Z.ltb_ge _ _)) by lia); reflexivity.
  - destruct Hw as [Hw Hlast]. inversion Hw as [|? ? W1 Hws]; subst. cbn [fst snd] in *. destruct fuel as [|fuel]; [cbn in Hf; lia|].
    unfold doc2429s in H. cbn [flat_map fst snd] in H. fold (doc2429s gs) in H. unfold doc2429 in H. fold (ents2 es) in H.
    assert (G : exists qs rs, ps = qs ++ rs /\ lines_ok qs /\ lines_ok rs /\ Forall2 (line_of false sep_next anyroom) (map fst qs) (doc_group g (ents2 es)) /\
      Forall2 (line_of false sep_next anyroom) (map fst rs) (doc2429s gs)).
    { apply Forall2_app_inv_r in H as (l1 & l2 & H1 & H2 & E). apply map_eq_app in E as (qs & rs & -> & <- & <-). exists qs, rs.
      unfold lines_ok in *. apply Forall_app in Hl as [Hl1 Hl2]. auto. }
    destruct G as (qs & rs & -> & Lq & Lr & Hq & Hr). rewrite map_app.
    assert (E2 : Forall (fun e => length e = 2) (ents2 es)) by (unfold ents2; rewrite Forall_map, Forall_forall; intros e _; reflexivity).
    destruct (group_rd (@fst str str) 4 2 g (ents2 es) pre (map (@fst str str) rs) qs tailed_fst ltac:(lia) eq_refl E2 W1 Lq Hq) as ((g1 & G1 & G2) & G3 & G4 & G5 & G6).
    assert (El2 : length (ents2 es) = length es) by apply map_length. rewrite El2 in *.
    assert (Hmore : 2 < length qs + length rs).
    { destruct gs as [|g' gs'].
      - assert (Hes : es <> []) by exact (Hlast (g, es) [] eq_refl). assert (Hu := rows_up_le 4 (length es) ltac:(lia)). destruct es; [congruence|]. cbn [length] in *. lia.
      - apply Forall2_len in Hr. rewrite map_length in Hr. assert (Hd := doc2429s_len (g' :: gs')). cbn [length] in Hd. unfold str in *. lia. }
    set (lines := pre ++ _ ++ _) in *. cbn [loop2429].
    match goal with |- (if ?b then _ else _) = _ => assert (Hlt : b = true) end.
    { apply Z.ltb_lt. unfold lines. rewrite !app_length, !map_length. unfold str in *. lia. }
    rewrite Hlt. destruct (py_nth lines (Z.of_nat (length pre))) as [l0|]; [|discriminate]. cbn [rbind] in G1 |- *. rewrite G1. cbn [rbind].
    destruct (py_nth lines (Z.of_nat (length pre) + 1)) as [l1|]; [|discriminate]. cbn [rbind] in G3 |- *. rewrite G3. cbn [rbind].
    rewrite G2. rewrite group_out_count by exact W1. cbn [rbind]. change (Z.of_nat 4) with 4%Z in *. rewrite G4. cbn [rbind]. rewrite G5. rewrite ents2_cells.
    assert (F1 : every 0 2 (flat_map cells2 es) = map fst es) by (apply every_table1; [lia|intro e; split; reflexivity]).
    assert (F2 : every 1 2 (flat_map cells2 es) = map snd es) by (apply every_table1; [lia|intro e; split; reflexivity]).
    rewrite F1, F2.
    replace (Z.of_nat (length pre + length qs)) with (Z.of_nat (length (pre ++ map (@fst str str) qs))) by (rewrite app_length, map_length; reflexivity).
    unfold lines. rewrite app_assoc. rewrite IH.
    + rewrite <- app_assoc. cbn [app map]. do 3 f_equal.
      unfold out2429, group_out. cbn [fst snd].
      destruct (p_sets g) as [|a [|b [|c [|d [|e [|f [|? ?]]]]]]]; try discriminate. reflexivity.
    + split; [assumption|]. intros g' pre' E. apply (Hlast g' ((g, es) :: pre')). rewrite E. reflexivity.
    + assumption.
    + assumption.
    + cbn in Hf. lia.
Qed.
Definition read2429s (l : list (group * list (Z * Z))) : dict := [(KS "type", VInt 2429); (KS "groups", VList (map (fun g => VDict (out2429 g)) l))].
Lemma rd2429s : forall l block ps ho, block_lines block ps -> Forall2 (line_of false sep_next anyroom) (map fst ps) (doc2429s l) ->
  readable2429 l -> extract_set 2429 block ho = Ok (read2429s l).
Proof.
  intros l block ps ho Hb H Hr. open_block Hb. unfold extract2429, extract2429_fuel. rewrite block_drop by assumption. clear Eb. cbv zeta.
  apply lines_tail, lines_tail in Hl.
  match goal with |- context [loop2429 ?f _ _ _] => assert (L := loop2429_rd l ps [fst p0; fst p1] [] f Hr Hl H) end. cbn [app length] in L |- *. change (Z.of_nat 2) with 2%Z in L.
  match goal with |- context [loop2429 ?f ?x ?z ?y] => match type of L with _ -> loop2429 ?f' ?x' ?z' ?y' = _ => change (loop2429 f x z y) with (loop2429 f' x' z' y') end end.
  rewrite L; [reflexivity|]. apply Forall2_len in H. assert (Hd := doc2429s_len l). rewrite map_length in H |- *. unfold str in *. lia.
Qed.
