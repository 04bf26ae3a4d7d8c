(** C54: [fix_58b] and binary data that end in a line break, in general. *)
From Coq Require Import String List NArith ZArith Bool Lia.
Import ListNotations.
From Coq Require Import SpecFloat.
From Verif Require Import PyBase PyNum PyVal Utf8 Tools DsNodes DsHeaders Ds55 Ds58 Uff Facts FloatFacts DecFacts FloatText CplxFacts DictFacts Scan Container ContainerThms Append
  Utf8Facts Lines Stored Cells Rows RtHeads RtNodal FloatExact RtFun RtFunSet Witness PropFun Fix58 PropFix.
From Coq Require Import Lia.
Open Scope string_scope.
Open Scope list_scope.
Open Scope nat_scope.

(** ** The last line break of a file *)

(** A line break in front of which the line really ends: a line feed that does
    not belong to a carriage return, a carriage return, or both. *)
Definition break_after (q t : bytes) : Prop := t = [CR; LF] \/ t = [CR] \/ (t = [LF] /\ last q 0%N <> CR).
(** No two lines in a row are just [-1] (unless the second is the last line). *)
Definition apart (data : bytes) : Prop :=
  let lines := splitlines_bytes true data in
  forall i x y z, nth_error lines (i + 1) = Some x -> nth_error lines (i + 2) = Some y -> nth_error lines (i + 3) = Some z -> is_m1 x && is_m1 y = false.

Lemma lines_end : forall n q t, length q <= n -> break_after q t ->
  exists ls w, inline w /\ join ls ++ w = q /\ forall rest, hd 0%N rest <> LF -> splitlines_bytes true (q ++ t ++ rest) = ls ++ (w ++ t) :: splitlines_bytes true rest.
Proof.
  unfold splitlines_bytes. induction n as [|n IH]; intros q t Hn B.
  - destruct q; [|cbn in Hn; lia]. exists [], []. split; [constructor|]. split; [reflexivity|]. intros rest Hr. cbn [app].
    destruct B as [->|[->|[-> _]]]; destruct rest as [|c rest]; try reflexivity.
    cbn [app splitlines]. change (is_lb_bytes CR) with true. cbv iota. cbn [hd] in Hr. change (CR =? 13)%N with true. cbn [andb].
    destruct (N.eqb_spec c 10) as [->|_]; [exfalso; apply Hr; reflexivity|reflexivity].
  - destruct q as [|c q]; [apply (IH []); [cbn; lia|exact B]|].
    assert (Bq : q <> [] -> break_after q t).
    { intro N. destruct B as [->|[->|[-> B]]]; [left; reflexivity|right; left; reflexivity|]. right. right. split; [reflexivity|]. destruct q; [congruence|exact B]. }
    destruct (is_lb_bytes c) eqn:Ec.
    + destruct q as [|e q].
      * exists [[c]], []. split; [constructor|]. split; [reflexivity|]. intros rest Hr. destruct (IH [] t) as (ls & w & Hw & Hj & Hs); [cbn; lia| |].
        { destruct B as [->|[->|[-> B]]]; [left; reflexivity|right; left; reflexivity|right; right]. split; [reflexivity|discriminate]. }
        specialize (Hs rest Hr). apply app_eq_nil in Hj. destruct Hj as [Hj ->].
        assert (El : ls = []).
        { destruct ls as [|l ls]; [reflexivity|]. unfold join in Hj. cbn [concat] in Hj. apply app_eq_nil in Hj. destruct Hj as [-> _]. exfalso.
          assert (NE : forall s, ~ In [] (splitlines is_lb_bytes true s)).
          { clear. intro s. assert (G : forall n s, length s <= n -> ~ In [] (splitlines is_lb_bytes true s)).
            { clear. induction n as [|n IH]; intros s Hn; [destruct s; [intros []|cbn in Hn; lia]|]. destruct s as [|x s]; [intros []|]. cbn [splitlines length] in *.
              destruct (is_lb_bytes x).
              - destruct s as [|y s]; [intros [E|[]]; discriminate|]. destruct ((x =? 13) && (y =? 10))%N; intros [E|I]; try discriminate; revert I; apply IH; cbn [length] in *; lia.
              - destruct (splitlines is_lb_bytes true s) eqn:E; [intros [F|[]]; discriminate|]. intros [F|I]; [discriminate|]. apply (IH s ltac:(lia)). rewrite E. right. exact I. }
            apply (G (length s)). lia. }
          apply (NE ([] ++ t ++ rest)). rewrite Hs. left. reflexivity. }
        subst ls. cbn [app] in Hs |- *. cbn [splitlines]. rewrite Ec. destruct (t ++ rest) as [|y r] eqn:Et.
        { destruct B as [->|[->|[-> _]]]; discriminate. }
        replace ((c =? 13) && (y =? 10))%N with false; [f_equal; exact Hs|]. symmetry. apply andb_false_iff.
        destruct B as [->|[->|[-> B]]]; injection Et as <- _; [right; reflexivity..|]. left. apply N.eqb_neq. exact B.
      * destruct ((c =? 13) && (e =? 10))%N eqn:Ep.
        -- destruct (IH q t) as (ls & w & Hw & Hj & Hs); [cbn [length] in *; lia| |].
           { destruct q as [|x q]; [|assert (B' := Bq ltac:(discriminate)); destruct B' as [->|[->|[-> B']]]; [left; reflexivity|right; left; reflexivity|right; right; split; [reflexivity|exact B']]].
             destruct B as [->|[->|[-> B]]]; [left; reflexivity|right; left; reflexivity|right; right; split; [reflexivity|discriminate]]. }
           exists ([c; e] :: ls), w. split; [exact Hw|]. split; [unfold join in *; cbn [concat app]; rewrite <- Hj; reflexivity|]. intros rest Hr.
           cbn [app splitlines]. rewrite Ec, Ep. f_equal. apply Hs. exact Hr.
        -- destruct (IH (e :: q) t) as (ls & w & Hw & Hj & Hs); [cbn [length] in *; lia|apply Bq; discriminate|].
           exists ([c] :: ls), w. split; [exact Hw|]. split; [unfold join in *; cbn [concat app]; rewrite Hj; reflexivity|]. intros rest Hr.
           change ((c :: e :: q) ++ t ++ rest) with (c :: e :: (q ++ t ++ rest)). cbn [splitlines]. rewrite Ec, Ep. cbn [app]. f_equal. apply Hs. exact Hr.
    + destruct (IH q t) as (ls & w & Hw & Hj & Hs); [cbn [length] in *; lia| |].
      { destruct q as [|x q]; [|apply Bq; discriminate]. destruct B as [->|[->|[-> B]]]; [left; reflexivity|right; left; reflexivity|right; right; split; [reflexivity|discriminate]]. }
      destruct ls as [|l ls].
      * exists [], (c :: w). split; [constructor; assumption|]. split; [cbn [join concat app] in *; rewrite <- Hj; reflexivity|]. intros rest Hr.
        cbn [app splitlines]. rewrite Ec, (Hs rest Hr). reflexivity.
      * exists ((c :: l) :: ls), w. split; [exact Hw|]. split; [unfold join in *; cbn [concat app] in *; rewrite <- Hj; reflexivity|]. intros rest Hr.
        cbn [app splitlines]. rewrite Ec, (Hs rest Hr). reflexivity.
Qed.
Lemma rstrip_break : forall q w t, inline w -> break_after q t -> rstrip_crlf (w ++ t) = w.
Proof.
  intros q w t Hw B. unfold rstrip_crlf, rstrip_by. rewrite rev_app_distr.
  assert (E : dropwhile is_lb_bytes (rev t ++ rev w) = rev w).
  { rewrite dropwhile_app_all by (destruct B as [->|[->|[-> _]]]; repeat constructor). destruct (rev w) as [|c r] eqn:Er; [reflexivity|].
    apply dropwhile_first. assert (H := Hw). unfold inline in H. rewrite Forall_forall in H. apply H. apply in_rev. rewrite Er. left. reflexivity. }
  rewrite E. apply rev_involutive.
Qed.
(** The line break in front of the last delimiter is removed. *)
Theorem C54_last_break : forall q t, break_after q t -> apart (q ++ t ++ lit "    -1" ++ [LF]) ->
  fix_58b (q ++ t ++ lit "    -1" ++ [LF]) = Ok (q ++ lit "    -1" ++ [LF]).
Proof.
  intros q t B A. unfold apart in A. cbv zeta in A. change (lit "    -1" ++ [LF]) with TLINE in *.
  destruct (lines_end (length q) q t (le_n _) B) as (ls & w & Hw & Hj & Hs). specialize (Hs TLINE ltac:(discriminate)).
  change (splitlines_bytes true TLINE) with [TLINE] in Hs. rewrite Hs in A.
  rewrite (fix_58b_fixes _ (ls ++ [w ++ TLINE])).
  - f_equal. unfold join in *. rewrite concat_app. cbn [concat]. rewrite app_nil_r, app_assoc, Hj. reflexivity.
  - replace (fix1 (splitlines_bytes true (q ++ t ++ TLINE))) with (ls ++ [w ++ TLINE]).
    + apply fixes_same. intros i x y z Hx Hy Hz.
      assert (L : i + 3 < length (ls ++ [w ++ TLINE])) by (apply nth_error_Some; intro E; generalize (eq_trans (eq_sym E) Hz); discriminate). rewrite app_length in L. cbn [length] in L.
      rewrite nth_error_app1 in Hx, Hy by lia. destruct (nth_error (ls ++ [w ++ t; TLINE]) (i + 3)) as [z'|] eqn:Ez.
      * apply (A i x y z'); [rewrite nth_error_app1 by lia; assumption..|exact Ez].
      * exfalso. apply nth_error_None in Ez. rewrite app_length in Ez. cbn [length] in Ez. lia.
    + rewrite Hs. unfold fix1. change (ls ++ [w ++ t; TLINE]) with (ls ++ [w ++ t] ++ [TLINE]). rewrite app_assoc, !rev_app_distr. cbn [rev app].
      change (is_m1 TLINE) with true. cbv iota. cbn [rev]. rewrite rev_involutive. unfold glue. rewrite (rstrip_break q w t Hw B). reflexivity.
Qed.
Print Assumptions C54_last_break.

(** ** Values of data that miss their last bytes *)

Lemma every2_more : forall (g h : pt -> float) ps a, every_upto 0 1 2 (flat_map (fun p => [g p; h p]) ps ++ [a]) = map g ps /\ every 1 2 (flat_map (fun p => [g p; h p]) ps ++ [a]) = map h ps.
Proof.
  intros g h ps a. unfold every_upto. rewrite app_length. cbn [length]. rewrite Nat.add_sub, firstn_app_exact by reflexivity.
  split; (induction ps as [|p ps IH]; [reflexivity|]; cbn [map]; rewrite <- IH; reflexivity).
Qed.
Lemma every3_more : forall (g h i : pt -> float) ps a b, every_upto 0 2 3 (flat_map (fun p => [g p; h p; i p]) ps ++ [a; b]) = map g ps /\
  every_upto 1 1 3 (flat_map (fun p => [g p; h p; i p]) ps ++ [a; b]) = map h ps /\ every 2 3 (flat_map (fun p => [g p; h p; i p]) ps ++ [a; b]) = map i ps.
Proof.
  intros g h i ps a b. unfold every_upto. rewrite app_length. cbn [length]. split; [|split].
  - rewrite Nat.add_sub, firstn_app_exact by reflexivity. induction ps as [|p ps IH]; [reflexivity|]. cbn [map]. rewrite <- IH. reflexivity.
  - replace (length (flat_map (fun p => [g p; h p; i p]) ps) + 2 - 1) with (length (flat_map (fun p => [g p; h p; i p]) ps) + 1) by lia.
    rewrite firstn_app_2. cbn [firstn]. induction ps as [|p ps IH]; [reflexivity|]. cbn [map]. rewrite <- IH. reflexivity.
  - induction ps as [|p ps IH]; [reflexivity|]. cbn [map]. rewrite <- IH. reflexivity.
Qed.
(** The abscissa that is then read: for complex values at even spacing it keeps
    its length. *)
Definition x_short (cplx even : bool) (mn inc : float) (ps : list pt) : pyval :=
  if even then arange_x (length ps + (if cplx then 1 else 0)) mn inc else vfloats (map fst ps).
Lemma assemble_short : forall cplx even dbl d mn inc ps p,
  ix d "ord_data_type" = Ok (VInt (odt_of cplx dbl)) -> ix d "abscissa_spacing" = Ok (even_val even) ->
  ix d "abscissa_min" = Ok (VFloat mn) -> ix d "abscissa_inc" = Ok (VFloat inc) ->
  Forall (fun p : pt => f_finite (fst (snd p)) = true /\ okfin (snd (snd p))) ps ->
  assemble58 d (flat_map (raw cplx even) ps ++ removelast (raw cplx even p)) = Ok (dupdate d [(KS "x", x_short cplx even mn inc ps); (KS "data", y_out cplx ps)]).
Proof.
  intros cplx even dbl d mn inc ps p Ho He Hm Hi Hf. unfold assemble58, get_float. rewrite Ho, He, Hm, Hi. cbn [rbind].
  destruct cplx.
  - replace (eq_one_of (VInt (odt_of true dbl)) [2; 4]%Z) with false by (destruct dbl; reflexivity).
    replace (eq_one_of (VInt (odt_of true dbl)) [5; 6]%Z) with true by (destruct dbl; reflexivity).
    destruct even.
    + change (py_eqZ (even_val true) 0) with false. cbv iota. cbn [rbind].
      change (flat_map (raw true true) ps) with (flat_map (fun p : pt => [fst (snd p); snd (snd p)]) ps). change (removelast (raw true true p)) with [fst (snd p)].
      destruct (every2_more (fun p : pt => fst (snd p)) (fun p : pt => snd (snd p)) ps (fst (snd p))) as [E1 E2]. rewrite E1, E2, cjoin_out by exact Hf. cbn [rbind].
      unfold x_short. do 4 f_equal. f_equal.
      assert (L : length (flat_map (fun p : pt => [fst (snd p); snd (snd p)]) ps) = length ps * 2) by (clear; induction ps as [|q ps IH]; [reflexivity|]; cbn [flat_map app length]; rewrite IH; lia).
      rewrite app_length, L. cbn [length]. replace (length ps * 2 + 1 + 1) with ((length ps + 1) * 2) by lia. apply Nat.div_mul. lia.
    + change (py_eqZ (even_val false) 0) with true. cbv iota.
      change (flat_map (raw true false) ps) with (flat_map (fun p : pt => [fst p; fst (snd p); snd (snd p)]) ps). change (removelast (raw true false p)) with [fst p; fst (snd p)].
      destruct (every3_more (fun p : pt => fst p) (fun p : pt => fst (snd p)) (fun p : pt => snd (snd p)) ps (fst p) (fst (snd p))) as (E1 & E2 & E3).
      rewrite E1, E2, E3, cjoin_out by exact Hf. reflexivity.
  - replace (eq_one_of (VInt (odt_of false dbl)) [2; 4]%Z) with true by (destruct dbl; reflexivity). cbv iota.
    destruct even.
    + change (py_eqZ (even_val true) 0) with false. cbv iota. cbn [rbind]. change (removelast (raw false true p)) with (@nil float). rewrite app_nil_r.
      change (flat_map (raw false true) ps) with (flat_map (fun p : pt => [fst (snd p)]) ps). unfold x_short, y_out.
      replace (flat_map (fun p : pt => [fst (snd p)]) ps) with (map (fun p : pt => fst (snd p)) ps) by (clear; induction ps as [|q ps IH]; [reflexivity|]; cbn [flat_map app map]; rewrite IH; reflexivity).
      rewrite map_length, Nat.add_0_r. reflexivity.
    + change (py_eqZ (even_val false) 0) with true. cbv iota.
      change (flat_map (raw false false) ps) with (flat_map (fun p : pt => [fst p; fst (snd p)]) ps). change (removelast (raw false false p)) with [fst p].
      destruct (every2_more (fun p : pt => fst p) (fun p : pt => fst (snd p)) ps (fst p)) as [E1 E2]. rewrite E1, E2. reflexivity.
Qed.
Lemma packs_length : forall l, length (concat (map pack_d l)) = length l * 8.
Proof. induction l as [|f l IH]; [reflexivity|]. cbn [map concat length]. rewrite app_length, IH, pack_d_length. lia. Qed.
Lemma unpack_more : forall l s, Forall (fun f => f_valid f = true) l -> length s < 8 ->
  unpack_all (fun b => unpack_d b) 8 (length (concat (map pack_d l) ++ s) / 8) (concat (map pack_d l) ++ s) = l.
Proof.
  intros l s H Hs. rewrite app_length, packs_length. rewrite Nat.add_comm, Nat.div_add, (Nat.div_small (length s)) by lia. cbn [Nat.add].
  induction H as [|f l Hf _ IH]; [reflexivity|]. cbn [length map concat unpack_all]. rewrite <- app_assoc.
  rewrite firstn_app_exact, skipn_app_exact by apply pack_d_length. rewrite unpack_pack_d by assumption. f_equal. exact IH.
Qed.

(** ** A set whose data end in a line break *)

Definition block58b (hb p : bytes) : block := {| b_open := TLINE; b_body := hb ++ p; b_close := TLINE |}.
Lemma block58b_framed : forall r hb p, wf58 r -> Forall okline (l0_58 true r :: hd58 r) -> type_line 58 (l0_58 true r) = true ->
  utf8_enc (unlines (l0_58 true r :: hd58 r)) = Some hb -> no_delim p -> framed (block58b hb p).
Proof.
  intros r hb p W Hok Hty He Hnd. destruct (text_block_ok 58 (l0_58 true r) (hd58 r) Hok Hty) as (hb' & He' & _ & Hf & _ & _).
  split; [left; reflexivity|]. split; [left; reflexivity|]. cbn [block58b b_body b_close]. intros i Hi' Hd. rewrite <- app_assoc in Hd.
  assert (Hc : closed hb).
  { destruct (closed_unlines (l0_58 true r :: hd58 r)) as [E|(q & x & E & Hx)].
    - exfalso. rewrite unlines_cons in E. destruct (l0_58 true r); discriminate.
    - rewrite E, utf8_enc_app in He. destruct (utf8_enc q) as [bq|]; [|discriminate]. right. exists bq, x. split; [|exact Hx].
      destruct Hx as [->| ->]; cbn in He; injection He as <-; reflexivity. }
  apply tags_In in Hd. rewrite tags_app_closed in Hd by assumption. apply in_app_or in Hd as [Hd|Hd].
  - assert (Et : tags hb = []) by (apply (tags_enc_nil (unlines (l0_58 true r :: hd58 r))); [assumption|apply unlines_tags; assumption]). rewrite Et in Hd. exact Hd.
  - apply in_map_iff in Hd as (j & <- & Hj). apply tags_In in Hj. apply (Hnd j); [|exact Hj]. rewrite app_length in Hi'. lia.
Qed.
Lemma stored58b_block : forall c fd d r, repr58 fd true d r -> wf58 r -> q_dbl r = true -> (n_bytes58 r < 10 ^ 12)%Z -> no_delim (payload r) ->
  exists hb, stored c Add fd d (block58b hb (payload r)) /\
    (forall p, no_delim p -> framed (block58b hb p)) /\ (forall p, type_in (hb ++ p) = 58%Z) /\
    forall p, extract_set 58 (TLINE ++ hb ++ p) false = try_any (do values <- binary_values (base58 true r) p ;; assemble58 (base58 true r) values) (PyException "Error reading data-set #58b").
Proof.
  intros c fd d r R W Hdbl Hnb Hnd. assert (Hi := repr58_ids _ _ _ _ R).
  destruct (bin_ok _ (conj (n_bytes_pos r) Hnb)) as (_ & Hb & Hty).
  assert (Hok : Forall okline (l0_58 true r :: hd58 r)) by (constructor; [exact Hb|apply hd58_ok; assumption]).
  destruct (text_block_ok 58 (l0_58 true r) (hd58 r) Hok Hty) as (hb & He & _ & Hf & _ & _).
  destruct (write58_items c Add fd true d r R W) as (T & Es & HT).
  assert (He' : utf8_enc (unlines (TAG :: l0_58 true r :: hd58 r)) = Some (TLINE ++ hb)).
  { change (unlines (TAG :: l0_58 true r :: hd58 r)) with (TLINE ++ unlines (l0_58 true r :: hd58 r)). rewrite utf8_enc_app, TLINE_enc, He. reflexivity. }
  assert (Fr : forall p, no_delim p -> framed (block58b hb p)) by (intros p Hp; eapply block58b_framed; eassumption).
  exists hb. split; [|split; [exact Fr|split]].
  - split; [apply Fr; exact Hnd|]. intro start. rewrite Es. rewrite (run_writes T _ (TLINE ++ hb) _ _ HT He'). cbn [tail58 app]. rewrite app_nil_r, run_raw.
    rewrite (writes_run [end_line] TLINE end_writes TLINE _ TLINE_enc). unfold block_bytes. cbn [block58b b_open b_body b_close]. unfold payload. rewrite <- !app_assoc. reflexivity.
  - intro p. eapply type_in_app; eassumption.
  - intro p. unfold extract_set. cbn [Z.eqb Pos.eqb]. rewrite app_assoc.
    rewrite (extract_head true r (TLINE ++ hb) p false W Hi) by (assumption || auto). reflexivity.
Qed.

(** C54: a binary set (real or complex, even or uneven) whose data end in a byte
    that is a line break is written and read back whole, but in the file that
    [fix_58b] makes of it the last value is missing. *)
Definition values58 (r : func58) (ps : list pt) : pyval := y_out (q_cplx r) (map npt ps).
Definition abscissa58 (r : func58) (ps : list pt) : pyval := x_short (q_cplx r) (q_even r) (rd 5 (q_min r)) (rd 5 (q_inc r)) (map npt ps).
Lemma read_block : forall b out, framed b -> reads b false out -> read_sets (Some (block_bytes b)) (view (block_bytes b)) (SelOne 0) false = Ok (view (block_bytes b), One out).
Proof.
  intros b out Hf Hr. rewrite c06. unfold rmap, wanted. cbn [map rseq].
  assert (S := set_at_new [] b false appendable_nil Hf). change (length (extents [])) with 0 in S. cbn [app] in S. change (Z.of_nat 0) with 0%Z in S. rewrite S.
  unfold reads in Hr. rewrite Hr. reflexivity.
Qed.
Lemma count_block : forall b, framed b -> n_sets (view (block_bytes b)) = 1.
Proof. intros b Hf. assert (E := view_framed [b] (Forall_cons _ Hf (Forall_nil _))). unfold file_of in E. cbn [map concat] in E. rewrite app_nil_r in E. rewrite E. reflexivity. Qed.
Theorem C54_payload_general_refuted : forall c fd d r q t,
  repr58 fd true d r -> wf58 r -> q_dbl r = true -> (n_bytes58 r < 10 ^ 12)%Z ->
  payload r = q ++ t -> break_after q t -> no_delim (payload r) -> no_delim q ->
  exists f u, write_sets c None uff0 [d] (lit "add") fd = (Some f, u, None) /\ data_of f = Some (values58 r (q_pts r)) /\
    (apart f -> exists out v dict, fix_58b f = Ok out /\ n_sets (view out) = 1 /\
       read_sets (Some out) (view out) (SelOne 0) false = Ok (v, One dict) /\
       dget dict (KS "data") = Some (values58 r (removelast (q_pts r))) /\ dget dict (KS "x") = Some (abscissa58 r (removelast (q_pts r)))).
Proof.
  intros c fd d r q t R W Hdbl Hnb Hq B Hnd Hnq. assert (Hi := repr58_ids _ _ _ _ R). assert (Hne := repr58_pts _ _ _ _ R). assert (Hp := wf58_pts r W).
  destruct (stored58b_block c fd d r R W Hdbl Hnb Hnd) as (hb & St & Fr & Ty & Ex).
  destruct (stored58b c fd false d r R W Hdbl Hnb Hnd) as (b & Sb & Rb & _).
  assert (Eb : block_bytes b = block_bytes (block58b hb (payload r))).
  { destruct St as [_ S1]. destruct Sb as [_ S2]. specialize (S1 []). specialize (S2 []). rewrite S1 in S2. injection S2 as S2. symmetry. exact S2. }
  set (f := block_bytes (block58b hb (payload r))) in *.
  destruct (stored_write c Add fd d _ None uff0 St appendable_nil) as [d' Hw]. cbn [kept app] in Hw. fold f in Hw.
  destruct (base_ix true r Hi) as (I1 & I2 & I3 & I4).
  exists f, (view f). split; [|split].
  - unfold write_sets. change (parse_mode (lit "add")) with (Ok Add). cbn [write_list]. rewrite Hw. reflexivity.
  - unfold data_of. rewrite <- Eb. rewrite (read_block b _ (proj1 Sb) Rb). unfold read58, values58. clear - Hi.
    unfold base58, head_out. destruct (q_ids r) as [|s1 [|s2 [|s3 [|s4 [|s5 [|]]]]]]; try discriminate. reflexivity.
  - intro A. set (g := block58b hb q). destruct (exists_last Hne) as (ps & p & Eps). rewrite Eps, removelast_last.
    assert (Efix : fix_58b f = Ok (block_bytes g)).
    { assert (Ef : f = ((TLINE ++ hb ++ q) ++ t ++ lit "    -1" ++ [LF])).
      { unfold f, block_bytes. cbn [block58b b_open b_body b_close]. rewrite Hq. change TLINE with (lit "    -1" ++ [LF]) at 2. rewrite <- !app_assoc. reflexivity. }
      rewrite Ef in A |- *. rewrite C54_last_break; [|  |exact A].
      - unfold g, block_bytes. cbn [block58b b_open b_body b_close]. change (lit "    -1" ++ [LF]) with TLINE. rewrite <- !app_assoc. reflexivity.
      - destruct B as [->|[->|[-> B]]]; [left; reflexivity|right; left; reflexivity|]. right. right. split; [reflexivity|].
        assert (Nq : q <> []).
        { intros ->. assert (L := f_equal (@length _) Hq). unfold payload in L. rewrite packs_length in L. cbn [app length] in L. lia. }
        destruct (exists_last Nq) as (q' & z & ->). rewrite !app_assoc, last_last. rewrite last_last in B. exact B. }
    assert (Fg : framed g) by (apply Fr; exact Hnq).
    assert (Ev : binary_values (base58 true r) q = Ok (flat_map (raw (q_cplx r) (q_even r)) (map npt ps) ++ removelast (raw (q_cplx r) (q_even r) (npt p)))).
    { unfold binary_values. change (ix (base58 true r) "byte_ordering") with (@Ok pyval (VInt 1)). cbn [rbind]. change (py_eqZ (VInt 1) 1) with true. cbv iota zeta.
      rewrite I1. cbn [rbind]. replace (eq_one_of (VInt (odt_of (q_cplx r) (q_dbl r))) [2; 5]%Z) with false by (rewrite Hdbl; destruct (q_cplx r); reflexivity).
      assert (Hv : Forall (fun f => f_valid f = true) (flat_map (raw (q_cplx r) (q_even r)) (map npt (q_pts r)))).
      { rewrite <- p_vals_raw. apply Forall_fm. eapply Forall_impl; [|exact Hp]. intros x Hx. eapply Forall_impl; [|apply (p_vals_ok (q_cplx r) (q_even r) x Hx)]. intros y Hy. apply Hy. }
      unfold payload in Hq. rewrite p_vals_raw in Hq. rewrite Eps, map_app, flat_map_app in Hq, Hv. cbn [map flat_map] in Hq, Hv. rewrite app_nil_r in Hq, Hv.
      assert (Nr : raw (q_cplx r) (q_even r) (npt p) <> []) by (unfold raw; destruct (q_even r); discriminate).
      rewrite (app_removelast_last S754_nan Nr) in Hq, Hv. set (l := flat_map (raw (q_cplx r) (q_even r)) (map npt ps) ++ removelast (raw (q_cplx r) (q_even r) (npt p))) in *.
      set (z := last (raw (q_cplx r) (q_even r) (npt p)) S754_nan) in *. rewrite app_assoc in Hq, Hv. fold l in Hq, Hv. rewrite map_app, concat_app in Hq. cbn [map concat] in Hq. rewrite app_nil_r in Hq.
      apply Forall_app in Hv. destruct Hv as [Hv _].
      assert (Lt : 1 <= length t <= 2) by (destruct B as [->|[->|[-> _]]]; cbn; lia).
      assert (Lq : length (concat (map pack_d l)) + 8 = length q + length t) by (assert (X := f_equal (@length _) Hq); rewrite !app_length, pack_d_length in X; exact X).
      assert (Eq : q = concat (map pack_d l) ++ firstn (8 - length t) (pack_d z)).
      { assert (E := f_equal (firstn (length q)) Hq). replace (firstn (length q) (q ++ t)) with q in E by (symmetry; apply firstn_app_exact; reflexivity). rewrite <- E at 1. fold l. fold z.
        assert (X : length q = length (concat (map pack_d l)) + (8 - length t)) by lia. rewrite X. apply firstn_app_2. }
      rewrite Eq. f_equal. apply unpack_more; [exact Hv|]. rewrite firstn_length, pack_d_length. lia. }
    assert (Rg : reads g false (base58 true r ++ [(KS "x", abscissa58 r ps); (KS "data", values58 r ps)])).
    { unfold reads. cbn [g block58b b_body b_open]. rewrite Ty, Ex, Ev. cbn [rbind].
      rewrite (assemble_short (q_cplx r) (q_even r) (q_dbl r) _ _ _ _ _ I1 I2 I3 I4).
      - rewrite base_end by assumption. reflexivity.
      - rewrite Eps in Hp. apply Forall_app in Hp. destruct Hp as [Hp _]. rewrite Forall_map. eapply Forall_impl; [|exact Hp].
        intros x (_ & H2 & H3). apply ntn_ok in H2. apply ntn_ok in H3. split; [apply H2|exact H3]. }
    eexists (block_bytes g), _, _. split; [exact Efix|]. split; [apply count_block; exact Fg|]. split; [apply read_block; [exact Fg|exact Rg]|].
    clear - Hi. unfold base58, head_out. destruct (q_ids r) as [|s1 [|s2 [|s3 [|s4 [|s5 [|]]]]]]; try discriminate. split; reflexivity.
Qed.
Print Assumptions C54_payload_general_refuted.

(** Such sets: a real one at even spacing, a complex one at uneven spacing. *)
Definition r58_lf : func58 := Eval vm_compute in
  r58 false true true (fl "0") (fl "1") [(fl "0", (fl "1", f_zero)); (fl "1", (fl "2", f_zero)); (fl "2", (v863, f_zero))].
Definition d58_lfc : dict := Eval vm_compute in
  h58 ++ [(KS "abscissa_spacing", VInt 0); (KS "binary", VInt 1); (KS "x", VArr DFloat [fv "0.1"; fv "0.25"; fv "1e-7"]); (KS "data", VArr DCplx [cv58 "1" "2"; cv58 "-0.1" "1e300"; VCplx (fl "3") v863])].
Definition r58_lfc : func58 := Eval vm_compute in
  r58 true true false f_zero f_zero [(fl "0.1", (fl "1", fl "2")); (fl "0.25", (fl "-0.1", fl "1e300")); (fl "1e-7", (fl "3", v863))].
Lemma apart_check : forall data, forallb (fun p => negb (is_m1 (fst p) && is_m1 (snd p))) (combine (splitlines_bytes true data) (tl (splitlines_bytes true data))) = true -> apart data.
Proof.
  intros data H i x y z Hx Hy _. rewrite forallb_forall in H. specialize (H (x, y)). cbn [fst snd] in H. destruct (is_m1 x && is_m1 y); [|reflexivity]. exfalso.
  assert (I : In (x, y) (combine (splitlines_bytes true data) (tl (splitlines_bytes true data)))); [|specialize (H I); discriminate].
  apply (nth_error_In _ (i + 1)). revert Hx Hy. generalize (splitlines_bytes true data) as l. intro l. replace (i + 2) with (S (i + 1)) by lia. generalize (i + 1) as k. clear.
  induction l as [|a l IH]; intros k Hx Hy; [destruct k; discriminate|]. destruct l as [|b l]; [destruct k; discriminate|].
  destruct k as [|k]; cbn [nth_error combine tl] in *; [injection Hx as ->; injection Hy as ->; reflexivity|]. apply (IH k); assumption.
Qed.
Definition file_lf (d : dict) : bytes := match write_sets noclock None uff0 [d] (lit "add") true with (Some f, _, _) => f | _ => [] end.
Definition ends_in_break (d : dict) (r : func58) : Prop :=
  repr58 true true d r /\ wf58 r /\ q_dbl r = true /\ (n_bytes58 r < 10 ^ 12)%Z /\
  payload r = removelast (payload r) ++ [LF] /\ break_after (removelast (payload r)) [LF] /\ no_delim (payload r) /\ no_delim (removelast (payload r)) /\ apart (file_lf d).
Example C54_payload_even : ends_in_break d58_lf r58_lf.
Proof.
  split; [|split; [wf58_tac|]].
  - unfold repr58. repeat (split; [solve [repeat wit58]|]). split.
    + eexists. split; [vm_compute; reflexivity|]. left. eexists _, _, _. split; [reflexivity|]. split; [vm_compute; reflexivity|]. repeat (split; [vm_compute; reflexivity|]).
      vm_compute; reflexivity.
    + eexists. split; [vm_compute; reflexivity|]. split; [exact Logic.I|]. eexists DFloat, _. split; [vm_compute; reflexivity|]. split; [split; discriminate|].
      cbv iota. repeat constructor.
  - split; [reflexivity|]. split; [vm_compute; reflexivity|]. split; [vm_compute; reflexivity|]. split; [right; right; split; [reflexivity|vm_compute; discriminate]|].
    split; [apply no_delim_tags; vm_compute; reflexivity|]. split; [apply no_delim_tags; vm_compute; reflexivity|]. apply apart_check. vm_compute. reflexivity.
Qed.
Example C54_payload_uneven : ends_in_break d58_lfc r58_lfc.
Proof.
  split; [|split; [wf58_tac|]].
  - unfold repr58. repeat (split; [solve [repeat wit58]|]). split.
    + eexists. split; [vm_compute; reflexivity|]. left. eexists _, _, _. split; [reflexivity|]. split; [vm_compute; reflexivity|]. repeat (split; [vm_compute; reflexivity|]).
      vm_compute; reflexivity.
    + eexists. split; [vm_compute; reflexivity|]. split; [exact Logic.I|]. eexists DCplx, _. split; [vm_compute; reflexivity|]. split; [split; reflexivity|].
      cbv iota. repeat (constructor; [split; vm_compute; reflexivity|]). constructor.
  - split; [reflexivity|]. split; [vm_compute; reflexivity|]. split; [vm_compute; reflexivity|]. split; [right; right; split; [reflexivity|vm_compute; discriminate]|].
    split; [apply no_delim_tags; vm_compute; reflexivity|]. split; [apply no_delim_tags; vm_compute; reflexivity|]. apply apart_check. vm_compute. reflexivity.
Qed.
