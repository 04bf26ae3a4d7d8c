(** Data at nodes (55).  See PropNodes.v for the meaning of [round_trips],
    [reprN], [wfN], [readN]. *)
From Coq Require Import String List NArith ZArith Bool Lia.
Import ListNotations.
From Coq Require Import SpecFloat.
From Verif Require Import PyBase PyNum PyVal Utf8 Tools DsNodes DsHeaders Ds55 Uff FloatFacts DecFacts FloatText CplxFacts Container Append Lines Stored Cells Rows RtHeads RtNodal Witness.
Open Scope string_scope.
Open Scope list_scope.
Open Scope nat_scope.

(* ------------------------------------------------------------------ *)
(** C25: analysis types 2, 3, 5, 7; three or six real values or three complex
    values per node, any number of nodes.  Floats come back with six digits;
    complex numbers are put together as [re + 1.j * im]. *)
Theorem C25_round_trip_55 : forall c m fd ho d r, repr55 d r -> wf55 r -> round_trips c m fd ho d (read55 r).
Proof. intros. eapply text_set_round, set55; eassumption. Qed.
Print Assumptions C25_round_trip_55.
(** The parts read are the rounded parts written, up to the sign of a zero. *)
Theorem C25_complex_parts : forall a b, exists re im, r6c (a, b) = VCplx re im /\
  (re = rd 5 a \/ (exists s s', rd 5 a = S754_zero s /\ re = S754_zero s')) /\
  (im = rd 5 b \/ (exists s s', rd 5 b = S754_zero s /\ im = S754_zero s')).
Proof.
  intros a b. eexists _, _. split; [reflexivity|]. cbn [fst snd]. unfold r6f. split.
  - destruct (rd 5 a) as [s|s| |s m e]; cbn [re_part]; [right; eauto|left; reflexivity..].
  - destruct (rd 5 b) as [s|s| |s m e]; cbn [im_part]; [right; eauto|left; reflexivity..].
Qed.
Print Assumptions C25_complex_parts.

Definition ids55 : dict := [(KS "id1", VStr (lit "a mode")); (KS "id3", VStr (lit "third"))].
Definition cols (l : list (string * list pyval)) (dt : dtype) : dict := map (fun kv => (KS (fst kv), VArr dt (snd kv))) l.
Definition d55_normal : dict := Eval vm_compute in
  [(KS "type", VInt 55); (KS "analysis_type", VInt 2); (KS "data_ch", VInt 2); (KS "spec_data_type", VInt 8); (KS "load_case", VInt (-1));
   (KS "mode_n", VInt 3); (KS "freq", fv "12.34567"); (KS "modal_m", VInt 2); (KS "node_nums", VList [VInt 1; VInt 1234567890])] ++ ids55 ++
  cols [("r1", [fv "1.5"; fv "-0.1"]); ("r2", [fv "1e-7"; fv "2"]); ("r3", [fv "0"; fv "123456789"])] DFloat.
Definition r55 (m : modes) (k : kind55) (rows : list (Z * list float)) : data55 :=
  {| v_ids := [lit "a mode"; lit "NONE"; lit "third"; lit "NONE"; lit "NONE"]; v_model := 1; v_ch := 2; v_spec := 8; v_modes := m; v_kind := k; v_rows := rows |}.
Definition r55_normal : data55 := Eval vm_compute in
  r55 (Normal (-1) 3 (fl "12.34567") (fl "2") (fl "0") (fl "0")) Real3 [(1, [fl "1.5"; fl "1e-7"; fl "0"]); (1234567890, [fl "-0.1"; fl "2"; fl "123456789"])]%Z.
Definition cv (a b : string) : pyval := VCplx (fl a) (fl b).
Definition d55_complex : dict := Eval vm_compute in
  [(KS "type", VInt 55); (KS "analysis_type", VInt 3); (KS "data_ch", VInt 2); (KS "spec_data_type", VInt 8); (KS "load_case", VInt 1);
   (KS "mode_n", VInt 3); (KS "eig", cv "-1.5" "300"); (KS "modal_a", fv "2.5"); (KS "node_nums", VArr DInt [VInt 1; VInt 7])] ++ ids55 ++
  cols [("r1", [cv "1.5" "2"; cv "-0.1" "-0"]); ("r2", [cv "1e-7" "1e-300"; cv "2" "3"]); ("r3", [cv "0" "0"; cv "123456789" "1"])] DCplx.
Definition r55_complex : data55 := Eval vm_compute in
  r55 (Complex false 1 3 (fl "-1.5", fl "300") (fl "2.5", fl "0") (fl "0", fl "0")) Cplx3
   [(1, [fl "1.5"; fl "2"; fl "1e-7"; fl "1e-300"; fl "0"; fl "0"]); (7, [fl "-0.1"; fl "-0"; fl "2"; fl "3"; fl "123456789"; fl "1"])]%Z.
Definition d55_response : dict := Eval vm_compute in
  [(KS "type", VInt 55); (KS "analysis_type", VInt 5); (KS "data_ch", VInt 2); (KS "spec_data_type", VInt 8); (KS "load_case", VInt 1);
   (KS "freq_step_n", VInt 3); (KS "freq", fv "1.25"); (KS "node_nums", VArr DInt [VInt 9])] ++ ids55 ++
  cols [("r1", [fv "1"]); ("r2", [fv "2"]); ("r3", [fv "3"]); ("r4", [fv "-4"]); ("r5", [fv "5"]); ("r6", [fv "nan"])] DFloat.
Definition r55_response : data55 := Eval vm_compute in
  r55 (Response 1 3 (fl "1.25")) Real6 [(9, [fl "1"; fl "2"; fl "3"; fl "-4"; fl "5"; fl "nan"])]%Z.
Ltac wit_col := eexists; split; [vm_compute; reflexivity|]; first [split; [vm_compute; reflexivity|]|idtac]; wit_seq; try (split; vm_compute; reflexivity).
Ltac wit55 d r :=
  split; [unfold repr55, d, r; cbn [v_ids v_model v_ch v_spec v_modes v_kind v_rows repr_modes repr_rows id_keys analysis];
    split; [reflexivity|]; split; [reflexivity|]; split; [repeat (constructor; [wit1|]); constructor|]; split; [wit1|];
    split; [eexists; split; [vm_compute; reflexivity|]; split; [vm_compute; reflexivity|]; reflexivity|]; split; [wit1|]; split; [wit1|]
   |unfold wf55, r; cbn [v_ids v_model v_ch v_spec v_modes v_kind v_rows wf_modes row_len]; unfold okfin, okf; wit].
Example C25_example_normal : repr55 d55_normal r55_normal /\ wf55 r55_normal.
Proof.
  wit55 d55_normal r55_normal. split; [wit|]. split; [wit|]. split; [reflexivity|]. split; [wit_col|]. split; wit_col.
Qed.
Example C25_example_complex : repr55 d55_complex r55_complex /\ wf55 r55_complex.
Proof.
  wit55 d55_complex r55_complex. split.
  - split; [wit|]. split; [wit|]. split; [eexists; split; [vm_compute; reflexivity|split; vm_compute; reflexivity]|].
    split; [left; eexists; split; [vm_compute; reflexivity|]; eexists; split; [vm_compute; reflexivity|split; vm_compute; reflexivity]|right; split; reflexivity].
  - split; [wit|]. split; [reflexivity|]. split; [wit_col|]. split; wit_col.
Qed.
Example C25_example_response : repr55 d55_response r55_response /\ wf55 r55_response.
Proof.
  wit55 d55_response r55_response. split; [wit|]. split; [wit|]. split; [wit_col|]. repeat (split; [wit_col|]). wit_col.
Qed.

(** C26: complex r1..r6 are accepted by the writer (which stores r1..r3 only) but
    the block cannot be read. *)
Definition d55_six : dict := Eval vm_compute in
  [(KS "type", VInt 55); (KS "analysis_type", VInt 5); (KS "data_ch", VInt 3); (KS "spec_data_type", VInt 8); (KS "load_case", VInt 1);
   (KS "freq_step_n", VInt 3); (KS "freq", fv "1.25"); (KS "node_nums", VArr DInt [VInt 9])] ++
  cols [("r1", [cv "1" "1"]); ("r2", [cv "2" "1"]); ("r3", [cv "3" "1"]); ("r4", [cv "-4" "1"]); ("r5", [cv "5" "1"]); ("r6", [cv "6" "1"])] DCplx.
Theorem C26_refuted : exists f u, write_sets noclock None uff0 [d55_six] (lit "add") true = (Some f, u, None) /\
  read_sets (Some f) u (SelOne 0) false = Err (PyException "Error when reading data-set(s).").
Proof. eexists _, _. split; [vm_compute; reflexivity|]. vm_compute; reflexivity. Qed.
Print Assumptions C26_refuted.
