(** UTF-8: encoding then decoding is the identity; shape of encoded text. *)
From Verif Require Import PyBase PyNum Utf8 Facts.
From Coq Require Import Lia.
Open Scope N_scope.

(** [lia] loses the sign of N.div and N.modulo; hide them first. *)
Ltac hide_dm := repeat match goal with
  | |- context [?a mod ?b] => let x := fresh "md" in set (x := a mod b) in *; clearbody x
  | H : context [?a mod ?b] |- _ => let x := fresh "md" in set (x := a mod b) in *; clearbody x
  | |- context [?a / ?b] => let x := fresh "dv" in set (x := a / b) in *; clearbody x
  | H : context [?a / ?b] |- _ => let x := fresh "dv" in set (x := a / b) in *; clearbody x
  end.
Ltac lia := try (match goal with |- @eq (list N) _ _ => exfalso | |- @eq str _ _ => exfalso end); hide_dm; Lia.lia.
Ltac some_inj H b := match type of H with Some ?x = Some _ => let Hb := fresh in assert (Hb : b = x) by congruence; clear H; subst b end.

(** Unicode scalar values. *)
Definition scalar (c : N) : Prop := c < 55296 \/ (57343 < c /\ c < 1114112).

Lemma enc1_none : forall c, enc1 c = None <-> ~ scalar c.
Proof.
  intros c. unfold enc1, scalar.
  destruct (N.ltb_spec c 128); [split; [discriminate|lia]|].
  destruct (N.ltb_spec c 2048); [split; [discriminate|lia]|].
  destruct (N.leb_spec 55296 c), (N.leb_spec c 57343); cbn [andb];
    try (split; [lia|reflexivity]);
    destruct (N.ltb_spec c 65536); try (split; [discriminate|lia]);
    destruct (N.ltb_spec c 1114112); split; try discriminate; try lia; reflexivity.
Qed.

Lemma divmod : forall a b, b <> 0 -> a = b * (a / b) + a mod b /\ a mod b < b.
Proof. intros a b H. split; [apply N.div_mod; assumption|apply N.mod_lt; assumption]. Qed.

Lemma is_cont_mod : forall c, is_cont (128 + c mod 64) = true.
Proof. intro c. destruct (divmod c 64 ltac:(lia)) as [_ H]. unfold is_cont. apply andb_true_iff. split; apply N.leb_le; lia. Qed.

Lemma decode_enc1 : forall c b r, enc1 c = Some b -> utf8_decode (b ++ r) = c :: utf8_decode r.
Proof.
  intros c b r H. unfold enc1 in H.
  destruct (N.ltb_spec c 128) as [C1|C1].
  { some_inj H b. cbn [app utf8_decode]. apply N.ltb_lt in C1. rewrite C1. reflexivity. }
  destruct (N.ltb_spec c 2048) as [C2|C2].
  { some_inj H b. destruct (divmod c 64 ltac:(lia)) as [E M].
    assert (2 <= c / 64) by (apply N.div_le_lower_bound; lia). assert (c / 64 < 32) by (apply N.div_lt_upper_bound; lia).
    cbn [app utf8_decode].
    destruct (N.ltb_spec (192 + c / 64) 128); [lia|].
    destruct (N.leb_spec 194 (192 + c / 64)); [|lia]. destruct (N.leb_spec (192 + c / 64) 223); [|lia]. cbn [andb].
    rewrite is_cont_mod. f_equal. lia. }
  destruct (N.leb_spec 55296 c) as [C3|C3], (N.leb_spec c 57343) as [C4|C4]; cbn [andb] in H; try discriminate.
  all: destruct (N.ltb_spec c 65536) as [C5|C5].
  all: try (destruct (N.ltb_spec c 1114112) as [C6|C6]; [|discriminate]).
  all: try lia.
  (* three bytes *)
  all: some_inj H b.
  all: destruct (divmod c 64 ltac:(lia)) as [E M]; destruct (divmod (c / 64) 64 ltac:(lia)) as [E2 M2].
  all: try rewrite N.div_div in E2 by lia; change (64 * 64) with 4096 in E2.
  1,3: assert (c / 4096 < 16) by (apply N.div_lt_upper_bound; lia);
    cbn [app utf8_decode];
    destruct (N.ltb_spec (224 + c / 4096) 128); [lia|];
    destruct (N.leb_spec (224 + c / 4096) 223); [lia|]; rewrite andb_false_r;
    destruct (N.leb_spec 224 (224 + c / 4096)); [|lia]; destruct (N.leb_spec (224 + c / 4096) 239); [|lia]; cbn [andb];
    assert (Hok : ok2_3 (224 + c / 4096) (128 + (c / 64) mod 64) = true);
    [ unfold ok2_3; rewrite is_cont_mod; cbn [andb];
      destruct (N.eqb_spec (224 + c / 4096) 224);
      [ destruct (N.leb_spec 160 (128 + (c / 64) mod 64)); [|lia];
        destruct (N.eqb_spec (224 + c / 4096) 237); [lia|reflexivity]
      | destruct (N.eqb_spec (224 + c / 4096) 237); [|reflexivity];
        destruct (N.ltb_spec (128 + (c / 64) mod 64) 160); [reflexivity|lia] ]
    | rewrite Hok, is_cont_mod; f_equal; lia ].
  (* four bytes *)
  destruct (divmod (c / 4096) 64 ltac:(lia)) as [E3 M3]. rewrite N.div_div in E3 by lia. change (4096 * 64) with 262144 in E3.
  assert (c / 262144 < 5) by (apply N.div_lt_upper_bound; lia).
  cbn [app utf8_decode].
  destruct (N.ltb_spec (240 + c / 262144) 128); [lia|].
  destruct (N.leb_spec (240 + c / 262144) 223); [lia|]. rewrite andb_false_r.
  destruct (N.leb_spec (240 + c / 262144) 239); [lia|]. rewrite andb_false_r.
  destruct (N.leb_spec 240 (240 + c / 262144)); [|lia]. destruct (N.leb_spec (240 + c / 262144) 244); [|lia]. cbn [andb].
  assert (Hok : ok2_4 (240 + c / 262144) (128 + (c / 4096) mod 64) = true).
  { unfold ok2_4. rewrite is_cont_mod. cbn [andb].
    destruct (N.eqb_spec (240 + c / 262144) 240).
    - destruct (N.leb_spec 144 (128 + (c / 4096) mod 64)); [|lia].
      destruct (N.eqb_spec (240 + c / 262144) 244); [lia|reflexivity].
    - destruct (N.eqb_spec (240 + c / 262144) 244); [|reflexivity].
      destruct (N.ltb_spec (128 + (c / 4096) mod 64) 144); [reflexivity|lia]. }
  rewrite Hok, !is_cont_mod. f_equal. lia.
Qed.

Lemma decode_encode : forall s b r, utf8_enc s = Some b -> utf8_decode (b ++ r) = s ++ utf8_decode r.
Proof.
  induction s as [|c s IH]; intros b r H; cbn [utf8_enc] in H.
  - injection H as <-. reflexivity.
  - destruct (enc1 c) as [b1|] eqn:E1; [|discriminate]. destruct (utf8_enc s) as [b2|]; [|discriminate].
    injection H as <-. rewrite <- app_assoc. rewrite (decode_enc1 _ _ _ E1), (IH _ _ eq_refl). reflexivity.
Qed.

Lemma utf8_enc_app : forall a b, utf8_enc (a ++ b) =
  match utf8_enc a, utf8_enc b with Some x, Some y => Some (x ++ y) | _, _ => None end.
Proof.
  induction a as [|c a IH]; intro b; cbn [utf8_enc app].
  - destruct (utf8_enc b); reflexivity.
  - rewrite IH. destruct (enc1 c), (utf8_enc a), (utf8_enc b); try reflexivity. rewrite app_assoc. reflexivity.
Qed.
Lemma utf8_enc_some : forall s, Forall scalar s -> exists b, utf8_enc s = Some b.
Proof.
  induction s as [|c s IH]; intro H; cbn [utf8_enc]; [eauto|]. inversion H as [|? ? Hc Hs]; subst.
  destruct (enc1 c) eqn:E; [|apply enc1_none in E; contradiction]. destruct (IH Hs) as [t ->]. eauto.
Qed.
Lemma utf8_enc_none : forall s, utf8_enc s = None <-> ~ Forall scalar s.
Proof.
  intro s. split.
  - intros H F. destruct (utf8_enc_some s F). congruence.
  - induction s as [|c s IH]; intro H; [exfalso; apply H; constructor|]. cbn [utf8_enc].
    destruct (enc1 c) eqn:E; [|reflexivity]. rewrite IH; [reflexivity|]. intro F. apply H. constructor; [|assumption].
    destruct (N.lt_ge_cases c 55296); [left; assumption|]. right.
    destruct (N.lt_ge_cases 57343 c), (N.lt_ge_cases c 1114112); [split; assumption| | |];
      assert (enc1 c = None) by (apply enc1_none; unfold scalar; lia); congruence.
Qed.
Lemma utf8_enc_ascii : forall s, Forall (fun c => c < 128) s -> utf8_enc s = Some s.
Proof.
  induction s as [|c s IH]; intro H; [reflexivity|]. inversion H as [|? ? Hc Hs]; subst. cbn [utf8_enc].
  unfold enc1. apply N.ltb_lt in Hc. rewrite Hc. rewrite IH by assumption. reflexivity.
Qed.

(** Encodings are made of the ASCII characters themselves and bytes >= 128. *)
Lemma enc1_shape : forall c b, enc1 c = Some b -> (c < 128 /\ b = [c]) \/ (128 <= c /\ b <> [] /\ Forall (fun x => 128 <= x < 256) b).
Proof.
  intros c b H. unfold enc1 in H. destruct (N.ltb_spec c 128); [left; split; congruence|right; split; [assumption|]].
  destruct (N.ltb_spec c 2048).
  { some_inj H b. split; [discriminate|]. assert (c / 64 < 32) by (apply N.div_lt_upper_bound; lia).
    destruct (divmod c 64 ltac:(lia)) as [_ M]. repeat constructor; lia. }
  destruct ((55296 <=? c) && (c <=? 57343)); [discriminate|].
  destruct (divmod c 64 ltac:(lia)) as [_ M]. destruct (divmod (c / 64) 64 ltac:(lia)) as [_ M2]. destruct (divmod (c / 4096) 64 ltac:(lia)) as [_ M3].
  destruct (N.ltb_spec c 65536).
  { some_inj H b. split; [discriminate|]. assert (c / 4096 < 16) by (apply N.div_lt_upper_bound; lia). repeat constructor; lia. }
  destruct (N.ltb_spec c 1114112); [|discriminate].
  some_inj H b. split; [discriminate|]. assert (c / 262144 < 5) by (apply N.div_lt_upper_bound; lia). repeat constructor; lia.
Qed.
