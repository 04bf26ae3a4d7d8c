(** Single precision binary functions (58): what every such set comes back as. *)
From Coq Require Import String List NArith ZArith Bool Lia.
Import ListNotations.
From Verif Require Import PyBase PyNum PyVal Utf8 Tools DsNodes DsHeaders Ds55 Ds58 Uff Facts FloatFacts DecFacts FloatText CplxFacts DictFacts Scan Container Append
  Utf8Facts Lines Stored Cells Rows RtHeads RtNodal RtFun RtFunSet Witness PropFun PropBinary.
From Coq Require Import Lia.
Open Scope string_scope.
Open Scope list_scope.
Open Scope nat_scope.

(** What is read from the block of any binary set that is added. *)
Lemma stored58_raw : forall c fd d r, repr58 fd true d r -> wf58 r -> (n_bytes58 r < 10 ^ 12)%Z -> no_delim (payload r) ->
  exists b, stored c Add fd d b /\ type_in (b_body b) = 58%Z /\
    extract_set 58 (b_open b ++ b_body b) false =
      try_any (do values <- binary_values (base58 true r) (payload r) ;; assemble58 (base58 true r) values) (PyException "Error reading data-set #58b").
Proof.
  intros c fd d r R W Hnb Hnd. assert (Hi := repr58_ids _ _ _ _ R).
  destruct (bin_ok _ (conj (n_bytes_pos r) Hnb)) as (_ & Hb & Hty).
  assert (Hok : Forall okline (l0_58 true r :: hd58 r)) by (constructor; [exact Hb|apply hd58_ok; assumption]).
  destruct (text_block_ok 58 (l0_58 true r) (hd58 r) Hok Hty) as (hb & He & _ & Hf & _ & _).
  destruct (write58_items c Add fd true d r R W) as (T & Es & HT).
  exists {| b_open := TLINE; b_body := hb ++ payload r; b_close := TLINE |}.
  assert (He' : utf8_enc (unlines (TAG :: l0_58 true r :: hd58 r)) = Some (TLINE ++ hb)).
  { change (unlines (TAG :: l0_58 true r :: hd58 r)) with (TLINE ++ unlines (l0_58 true r :: hd58 r)). rewrite utf8_enc_app, TLINE_enc, He. reflexivity. }
  assert (Htb : type_in (hb ++ payload r) = 58%Z) by (eapply type_in_app; eassumption).
  split; [split|split].
  - split; [left; reflexivity|]. split; [left; reflexivity|]. cbn [b_body b_close]. intros i Hi' Hd.
    rewrite <- app_assoc in Hd.
    assert (Hc : closed hb).
    { destruct (closed_unlines (l0_58 true r :: hd58 r)) as [E|(q & x & E & Hx)].
      - exfalso. rewrite unlines_cons in E. destruct (l0_58 true r); discriminate.
      - rewrite E, utf8_enc_app in He. destruct (utf8_enc q) as [bq|]; [|discriminate]. right. exists bq, x. split; [|exact Hx].
        destruct Hx as [->| ->]; cbn in He; injection He as <-; reflexivity. }
    apply tags_In in Hd. rewrite tags_app_closed in Hd by assumption. apply in_app_or in Hd as [Hd|Hd].
    + assert (Et : tags hb = []) by (apply (tags_enc_nil (unlines (l0_58 true r :: hd58 r))); [assumption|apply unlines_tags; assumption]). rewrite Et in Hd. exact Hd.
    + apply in_map_iff in Hd as (j & <- & Hj). apply tags_In in Hj. apply (Hnd j); [|exact Hj]. rewrite app_length in Hi'. lia.
  - intro start. rewrite Es. rewrite (run_writes T _ (TLINE ++ hb) _ _ HT He'). cbn [tail58 app]. rewrite app_nil_r, run_raw.
    rewrite (writes_run [end_line] TLINE end_writes TLINE _ TLINE_enc). unfold block_bytes. cbn [b_open b_body b_close]. unfold payload. rewrite <- !app_assoc. reflexivity.
  - exact Htb.
  - unfold extract_set. cbn [Z.eqb Pos.eqb b_open b_body]. rewrite app_assoc.
    rewrite (extract_head true r (TLINE ++ hb) (payload r) false W Hi) by (assumption || auto). reflexivity.
Qed.

Lemma every_length_lo : forall A step skip (l : list A), skip < step -> length l <= length (every_aux step skip l) * step + skip.
Proof.
  intros A step skip l. revert skip. induction l as [|x l IH]; intros skip Hs; [cbn; lia|]. cbn [every_aux length]. destruct skip as [|k].
  - specialize (IH (pred step) ltac:(lia)). cbn [length]. nia.
  - specialize (IH k ltac:(lia)). lia.
Qed.
(** [every] and [every_upto] of whole groups take one number of each. *)
Lemma every_groups : forall A start step n (l : list A), start < step -> length l = n * step -> length (every start step l) = n.
Proof.
  intros A start step n l Hs Hl. unfold every. assert (H1 := every_length A step start l Hs). assert (H2 := every_length_lo A step start l Hs).
  rewrite Hl in *. nia.
Qed.
Lemma every_upto_groups : forall A start drop step n (l : list A), start + drop < step -> length l = n * step -> length (every_upto start drop step l) = n.
Proof.
  intros A start drop step n l Hs Hl. unfold every_upto, every. set (k := firstn (length l - drop) l).
  assert (Hk : length k = length l - drop) by (unfold k; rewrite firstn_length; lia).
  assert (H1 := every_length A step start k ltac:(lia)). assert (H2 := every_length_lo A step start k ltac:(lia)).
  rewrite Hk, Hl in *. destruct n as [|n]; nia.
Qed.
Lemma cjoin_length : forall a b n, length a = n -> length b = n -> exists l, np_cjoin a b = Ok (VArr DCplx l) /\ length l = n.
Proof.
  intros a b n Ha Hb. unfold np_cjoin, bcast2. rewrite Ha, Hb, Nat.eqb_refl. eexists. split; [reflexivity|]. rewrite map_length, combine_length. lia.
Qed.

(** Whatever the numbers: real or complex, evenly spaced or not, twice as many
    points come back. *)
Theorem C30_all_refuted : forall c fd d r, repr58 fd true d r -> wf58 r -> (n_bytes58 r < 10 ^ 12)%Z -> no_delim (payload r) -> q_dbl r = false ->
  exists out dt l, round_trips c Add fd false d out /\ dget out (KS "data") = Some (VArr dt l) /\
    length l = 2 * length (q_pts r) /\ length l <> length (q_pts r).
Proof.
  intros c fd d r R W Hnb Hnd Hs. assert (Hi := repr58_ids _ _ _ _ R). assert (Hne := repr58_pts _ _ _ _ R).
  destruct (stored58_raw c fd d r R W Hnb Hnd) as (b & Hst & Hty & Hx).
  destruct (base_ix true r Hi) as (I1 & I2 & I3 & I4). rewrite Hs in I1.
  set (k := ((if q_even r then 0 else 1) + (if q_cplx r then 2 else 1))).
  assert (HL : length (payload r) = 8 * length (q_pts r) * k).
  { assert (H := C32_payload_length r). unfold k. destruct (q_even r), (q_cplx r); lia. }
  assert (Ev : exists vs, binary_values (base58 true r) (payload r) = Ok vs /\ length vs = 2 * length (q_pts r) * k).
  { unfold binary_values. change (ix (base58 true r) "byte_ordering") with (@Ok pyval (VInt 1)). cbn [rbind]. change (py_eqZ (VInt 1) 1) with true. cbv iota zeta.
    rewrite I1. cbn [rbind]. replace (eq_one_of (VInt (odt_of (q_cplx r) false)) [2; 5]%Z) with true by (destruct (q_cplx r); reflexivity).
    eexists. split; [reflexivity|]. rewrite unpack_length, HL. replace (8 * length (q_pts r) * k) with (2 * length (q_pts r) * k * 4) by lia. apply Nat.div_mul. lia. }
  destruct Ev as (vs & Ev & Lv). rewrite Ev in Hx. cbn [rbind] in Hx.
  assert (Ea : exists x dt l, assemble58 (base58 true r) vs = Ok (dupdate (base58 true r) [(KS "x", x); (KS "data", VArr dt l)]) /\ length l = 2 * length (q_pts r)).
  { unfold assemble58. rewrite I1, I2. cbn [rbind]. unfold k in Lv.
    assert (Hmn : get_float (base58 true r) "abscissa_min" = Ok (rd 5 (q_min r))) by (unfold get_float; rewrite I3; reflexivity).
    assert (Hin : get_float (base58 true r) "abscissa_inc" = Ok (rd 5 (q_inc r))) by (unfold get_float; rewrite I4; reflexivity).
    destruct (q_cplx r), (q_even r); cbn [odt_of even_val eq_one_of existsb py_eqZ Z.eqb Pos.eqb orb]; rewrite ?Hmn, ?Hin; cbn [rbind].
    - destruct (cjoin_length (every_upto 0 1 2 vs) (every 1 2 vs) (2 * length (q_pts r))) as (l & -> & Hl);
        [apply every_upto_groups; lia|apply every_groups; lia|]. cbn [rbind]. eexists _, _, _. split; [reflexivity|exact Hl].
    - destruct (cjoin_length (every_upto 1 1 3 vs) (every 2 3 vs) (2 * length (q_pts r))) as (l & -> & Hl);
        [apply every_upto_groups; lia|apply every_groups; lia|]. cbn [rbind]. eexists _, _, _. split; [reflexivity|exact Hl].
    - eexists _, _, _. split; [reflexivity|]. rewrite map_length. lia.
    - eexists _, _, _. split; [reflexivity|]. rewrite map_length. apply every_groups; lia. }
  destruct Ea as (x & dt & l & Ea & Hl). rewrite Ea in Hx. cbn [try_any] in Hx. rewrite base_end in Hx by assumption.
  exists (base58 true r ++ [(KS "x", x); (KS "data", VArr dt l)]), dt, l. split; [|split; [|split]].
  - eapply stored_round_trips; [exact Hst|]. unfold reads. rewrite Hty. exact Hx.
  - unfold base58, head_out. destruct (q_ids r) as [|s1 [|s2 [|s3 [|s4 [|s5 [|]]]]]]; try discriminate. reflexivity.
  - exact Hl.
  - rewrite Hl. destruct (q_pts r); [congruence|cbn; lia].
Qed.
Print Assumptions C30_all_refuted.
Definition r58_single : func58 := Eval vm_compute in
  r58 false false true (fl "0") (fl "1") [(fl "0", (fl "1.5", f_zero)); (fl "1", (fl "2.5", f_zero)); (fl "2", (fl "3.5", f_zero))].
Example C30_example : repr58 false true d58_single r58_single /\ wf58 r58_single /\ (n_bytes58 r58_single < 10 ^ 12)%Z /\ no_delim (payload r58_single) /\ q_dbl r58_single = false.
Proof.
  split; [|split; [wf58_tac|split; [vm_compute; reflexivity|split; [apply no_delim_tags; vm_compute; reflexivity|reflexivity]]]].
  unfold repr58. repeat (split; [solve [repeat wit58]|]). split.
  - eexists. split; [vm_compute; reflexivity|]. left. eexists _, _, _. split; [reflexivity|]. split; [vm_compute; reflexivity|]. repeat (split; [vm_compute; reflexivity|]).
    vm_compute; reflexivity.
  - eexists. split; [vm_compute; reflexivity|]. split; [exact Logic.I|]. eexists DFloat, _. split; [vm_compute; reflexivity|]. split; [split; discriminate|].
    cbv iota. repeat constructor.
Qed.
