(** Round trips of the header set (151), units (164), qualifiers (1858) and model
    headers (2400).  See PropNodes.v for the meaning of [round_trips], [reprN],
    [wfN], [readN]. *)
From Coq Require Import String List NArith ZArith Bool Lia.
Import ListNotations.
From Verif Require Import PyBase PyNum PyVal Utf8 Tools DsNodes DsHeaders Uff FloatText Lines Stored Cells Rows RtNodes RtHeads Witness.
Open Scope string_scope.
Open Scope list_scope.
Open Scope nat_scope.

(* ------------------------------------------------------------------ *)
(** C36: [repr151 c d h] lets the dates be missing, then they are those of the clock [c]. *)
Theorem C36_round_trip_151 : forall c m fd ho d h, repr151 c d h -> wf151 h -> round_trips c m fd ho d (read151 h).
Proof. intros. eapply text_set_round, set151; eassumption. Qed.
Print Assumptions C36_round_trip_151.
Definition d151 : dict := Eval vm_compute in
  [(KS "type", VInt 151); (KS "model_name", VStr (lit "Model file name")); (KS "description", VStr (lit " Model file description "));
   (KS "db_app", VStr (lit "Program which created DB")); (KS "program", VStr (lit "OpenModal"));
   (KS "date_db_created", VStr (lit "27-Jan-16")); (KS "time_db_created", VStr (lit "14:38:15"));
   (KS "version_db1", VInt 1); (KS "version_db2", VStr (lit "-2"))].
Definition h151 : head151 := Eval vm_compute in
  {| a_model := lit "Model file name"; a_desc := lit " Model file description "; a_app := lit "Program which created DB"; a_prog := lit "OpenModal";
     a_date1 := lit "27-Jan-16"; a_time1 := lit "14:38:15"; a_date2 := now_date noclock; a_time2 := now_time noclock;
     a_date3 := now_date noclock; a_time3 := now_time noclock; a_v1 := 1; a_v2 := -2; a_ft := 0 |}.
Example C36_example : repr151 noclock d151 h151 /\ wf151 h151.
Proof.
  split; [unfold repr151; wit|]. unfold wf151, h151, short_text. cbn [a_model a_desc a_app a_prog a_date1 a_time1 a_date2 a_time2 a_date3 a_time3 a_v1 a_v2 a_ft].
  wit; cbn; lia.
Qed.

(* ------------------------------------------------------------------ *)
(** C38: the four factors come back bit for bit. *)
Theorem C38_round_trip_164 : forall c m fd ho d u, repr164 d u -> wf164 u -> round_trips c m fd ho d (read164 u).
Proof. intros. eapply text_set_round, set164; eassumption. Qed.
Print Assumptions C38_round_trip_164.
Definition d164 : dict := Eval vm_compute in
  [(KS "type", VInt 164); (KS "units_code", VInt 1); (KS "units_description", VStr (lit "SI units"));
   (KS "length", fv "3.28083989501312334"); (KS "force", fv "2.24808943099710e-1"); (KS "temp", VInt 1); (KS "temp_offset", fv "-1e-320")].
Definition u164 : units := Eval vm_compute in
  {| u_code := 1; u_desc := lit "SI units"; u_mode := 1; u_len := fl "3.28083989501312334"; u_force := fl "2.24808943099710e-1";
     u_temp := fl "1"; u_off := fl "-1e-320" |}.
Example C38_example : repr164 d164 u164 /\ wf164 u164.
Proof.
  split; [unfold repr164; wit|]. unfold wf164, u164, short_text. cbn [u_code u_desc u_mode u_len u_force u_temp u_off].
  wit; cbn; lia.
Qed.

(* ------------------------------------------------------------------ *)
(** C39 *)
Theorem C39_round_trip_1858 : forall c m fd ho d q, repr1858 d q -> wf1858 q -> round_trips c m fd ho d (read1858 q).
Proof. intros. eapply text_set_round, set1858; eassumption. Qed.
Print Assumptions C39_round_trip_1858.
Definition d1858_of (oct run : Z) : dict :=
  [(KS "type", VInt 1858); (KS "record_num", VInt 1234567890); (KS "octave_format", VInt oct); (KS "measurement_run", VInt run)] ++
  map (fun k => (KS k, VInt 7)) keys1858 ++ map (fun k => (KS k, fv "-1.23456789e-105")) zs1858 ++ map (fun k => (KS k, VInt 3)) us1858 ++
  [(KS "response_direction", VStr (lit "+X")); (KS "reference_direction", VStr (lit "NONE"))].
Definition d1858 : dict := Eval vm_compute in d1858_of (-1234567) 123456.
Definition q1858 : qual := Eval vm_compute in
  {| q_rec := 1234567890; q_oct := -1234567; q_run := 123456; q_ints := repeat 7%Z 9; q_z := repeat (fl "-1.23456789e-105") 4;
     q_user := repeat (fl "3") 5; q_resp := lit "+X"; q_ref := lit "NONE" |}.
Example C39_example : repr1858 d1858 q1858 /\ wf1858 q1858.
Proof.
  split.
  - unfold repr1858. do 5 (split; [wit1|]). cbn [keys1858 zs1858 us1858 q_ints q_z q_user q1858].
    do 3 (split; [repeat (constructor; [wit_has|]); constructor|]). wit.
  - unfold wf1858, q1858, short_plain. cbn [q_rec q_oct q_run q_ints q_z q_user q_resp q_ref].
    do 3 (split; [wit1|]). do 3 (split; [wit|]). split; [split; [apply plain_ascii; reflexivity|cbn; lia]|].
    split; [split; [apply plain_ascii; reflexivity|cbn; lia]|discriminate].
Qed.

(** C40: a set with a ten-digit octave_format is read with another octave_format
    and another record number; with nine digits, or a measurement_run of seven, it
    cannot be read at all. *)
Definition d1858_rec (n oct run : Z) : dict := dput (d1858_of oct run) (KS "record_num") (VInt n).
Theorem C40_refuted : exists f u d,
  write_sets noclock None uff0 [d1858_rec 5 1234567890 5] (lit "add") true = (Some f, u, None) /\
  read_sets (Some f) u (SelOne 0) false = Ok (u, One d) /\
  dget d (KS "octave_format") = Some (VInt 34567890) /\ dget d (KS "record_num") = Some (VInt 512).
Proof. eexists _, _, _. split; [vm_compute; reflexivity|]. split; [vm_compute; reflexivity|]. split; reflexivity. Qed.
Print Assumptions C40_refuted.
Theorem C40_refuted_unreadable : exists f u f' u',
  write_sets noclock None uff0 [d1858_rec 5 123456789 5] (lit "add") true = (Some f, u, None) /\
  read_sets (Some f) u (SelOne 0) false = Err (PyException "Error when reading data-set(s).") /\
  write_sets noclock None uff0 [d1858_rec 5 1 1234567] (lit "add") true = (Some f', u', None) /\
  read_sets (Some f') u' (SelOne 0) false = Err (PyException "Error when reading data-set(s).").
Proof.
  eexists _, _, _, _. split; [vm_compute; reflexivity|]. split; [vm_compute; reflexivity|].
  split; [vm_compute; reflexivity|]. vm_compute; reflexivity.
Qed.
Print Assumptions C40_refuted_unreadable.

(* ------------------------------------------------------------------ *)
(** C41 *)
Theorem C41_round_trip_2400 : forall c m fd ho d h, repr2400 d h -> wf2400 h -> round_trips c m fd ho d (read2400 h).
Proof. intros. eapply text_set_round, set2400; eassumption. Qed.
Print Assumptions C41_round_trip_2400.
Definition d2400 : dict := Eval vm_compute in
  [(KS "type", VInt 2400); (KS "model_uid", VInt 123456789012); (KS "entity_type", VInt 31); (KS "entity_name", VStr (lit "name of entity"));
   (KS "status_mask", VList (map VInt (repeat 0 30 ++ [99; -1])%Z)); (KS "date", VStr (lit "09-Aug-96")); (KS "time", VStr (lit "11:42:12"));
   (KS "idm_item_id", VInt (-12345678901))].
Definition h2400 : mhead := Eval vm_compute in
  {| k_uid := 123456789012; k_et := 31; k_es := 0; k_ver := 0; k_name := lit "name of entity"; k_part := []; k_mask := repeat 0%Z 30 ++ [99; -1]%Z;
     k_date := lit "09-Aug-96"; k_time := lit "11:42:12"; k_vid := 0; k_iid := -12345678901; k_ppu := 0; k_opt := 0 |}.
Example C41_example : repr2400 d2400 h2400 /\ wf2400 h2400.
Proof.
  split; [unfold repr2400; wit|].
  unfold wf2400, h2400, short_plain. cbn [k_uid k_et k_es k_ver k_name k_part k_mask k_date k_time k_vid k_iid k_ppu k_opt].
  wit; try (apply plain_ascii; reflexivity); cbn; lia.
Qed.
