(** Model of the [prepare_N] functions and of the conversion 2412 -> 82.  All
    prepare functions have one shape: checks of single arguments in a fixed order,
    then a dictionary of the arguments; it is written as a table per function.
    [return_full_dict] is a Boolean.  Here [VInt], [VFloat], [VStr] are Python's
    int, float and str ([type(v) != int] rejects numpy scalars) and [VList] is a
    list; integer arrays are int64, float arrays float64. *)
From Verif Require Import PyBase PyNum PyVal Utf8 Tools DsGroups.
Open Scope Z_scope.

(* ------------------------------------------------------------------ *)
(** ** np.array(v).dtype *)

Inductive kind := KBool | KInt | KFloat | KCplx | KStr | KObj.
Definition rank (k : kind) : nat :=
  match k with KBool => 0 | KInt => 1 | KFloat => 2 | KCplx => 3 | KStr => 4 | KObj => 5 end.
Definition promote (a b : kind) : kind := if Nat.ltb (rank a) (rank b) then b else a.
Definition kind_of (dt : dtype) : kind :=
  match dt with DBool => KBool | DInt => KInt | DFloat => KFloat | DCplx => KCplx | DStr => KStr end.

(** Shape of [np.array(v)]; [None] if it is inhomogeneous. *)
Fixpoint shape (v : pyval) : option (list nat) :=
  match v with
  | VList l =>
      match l with
      | [] => Some [0%nat]
      | x :: r =>
          match shape x with
          | None => None
          | Some s =>
              if forallb (fun y => match shape y with
                                   | Some s' => if list_eq_dec Nat.eq_dec s s' then true else false
                                   | None => false
                                   end) r
              then Some (length l :: s) else None
          end
      end
  | VArr _ l => Some [length l]
  | VArr2 _ rows => Some [length rows; match rows with [] => 0%nat | r :: _ => length r end]
  | _ => Some []
  end.
(** Integers outside int64 are not modelled. *)
Fixpoint deep_kind (v : pyval) : result kind :=
  match v with
  | VNone | VDict _ => Ok KObj
  | VBool _ => Ok KBool
  | VInt z => if int64_ok z then Ok KInt else Err Unmodelled
  | VFloat _ => Ok KFloat
  | VCplx _ _ => Ok KCplx
  | VStr _ => Ok KStr
  | VList [] => Ok KFloat
  | VList (x :: r) => fold_left (fun acc y => do a <- acc ;; do b <- deep_kind y ;; Ok (promote a b)) r (deep_kind x)
  | VArr dt _ => Ok (kind_of dt)
  | VArr2 dt _ => Ok (kind_of dt)
  end.
Definition np_kind (v : pyval) : result kind :=
  match shape v with None => Err ValueError | Some _ => deep_kind v end.

(** [bool(v != None)]: an array compares elementwise; the truth value of an empty
    array depends on the version of numpy and is not modelled. *)
Definition ne_none (v : pyval) : result bool :=
  let arr n := match n with 0%nat => Err Unmodelled | 1%nat => Ok true | _ => Err ValueError end in
  match v with
  | VNone => Ok false
  | VArr _ l => arr (length l)
  | VArr2 _ rows => arr (length (concat rows))
  | _ => Ok true
  end.
(** [v in (z1, ..., None)] ([none]) or [v in (z1, ...)] *)
Definition in_tuple (zs : list Z) (none : bool) (v : pyval) : result bool :=
  match v with
  | VNone => Ok none
  | VArr _ [] => Err Unmodelled
  | VArr _ [x] => Ok (existsb (py_eqZ x) zs)
  | VArr _ _ => Err ValueError
  | VArr2 _ rows => match length (concat rows) with 0%nat | 1%nat => Err Unmodelled | _ => Err ValueError end
  | _ => Ok (existsb (py_eqZ v) zs)
  end.
(** [v in np.arange(lo, hi)]; lists and arrays are not modelled. *)
Definition zrange (lo hi : Z) : list Z := map (fun k => lo + Z.of_nat k) (seq 0 (Z.to_nat (hi - lo))).
Definition in_arange (lo hi : Z) (v : pyval) : result bool :=
  match v with
  | VList _ | VArr _ _ | VArr2 _ _ => Err Unmodelled
  | _ => Ok (existsb (py_eqZ v) (zrange lo hi))
  end.

(* ------------------------------------------------------------------ *)
(** ** Checks *)

Inductive check :=
| CInt | CFloat | CNum | CFloatCplx   (* np.array(v).dtype != int (float, number, float or complex) and v != None *)
| CStrT | CIntT | CFloatT             (* type(v) != str (int, float) and v != None *)
| CIn (zs : list Z)                   (* v not in (..., None) *)
| CRange (lo hi : Z)                  (* v not in np.arange(lo, hi) and v != None *)
| CSeq                                (* type(v) not in (list, tuple, np.ndarray) and v != None *)
| CIntIs | CFloatIs | CStrIs          (* the same with "v is not None" *)
| CLen32                              (* v != None and (no length or length != 32) *)
| CCsTypes | CIntV | CCsNames         (* dataset_2420.py, see below *)
| GIntT | GStrT | GInt                (* type(v) != int, type(v) != str, np.array(v).dtype != int *)
| GNonneg | GNonempty.                (* v < 0, v == "" *)

Definition k_int k := match k with KInt => true | _ => false end.
Definition k_float k := match k with KFloat => true | _ => false end.
Definition k_num k := match k with KInt | KFloat | KCplx => true | _ => false end.
Definition k_fc k := match k with KFloat | KCplx => true | _ => false end.
Definition need (b : bool) (e : exc) : result unit := if b then Ok tt else Err e.
(** [if bad and v != None: raise e] *)
Definition unless_none (good : bool) (v : pyval) (e : exc) : result unit :=
  if good then Ok tt else do b <- ne_none v ;; need (negb b) e.
Definition dtype_check (p : kind -> bool) (v : pyval) (e : exc) : result unit :=
  do k <- np_kind v ;; unless_none (p k) v e.
Definition dtype_check_is (p : kind -> bool) (v : pyval) : result unit :=
  do k <- np_kind v ;; need (p k || is_none v) TypeError.
Definition v_str v := match v with VStr _ => true | _ => false end.
Definition v_int v := match v with VInt _ => true | _ => false end.
Definition v_float v := match v with VFloat _ => true | _ => false end.
Definition v_seq v := match v with VList _ | VArr _ _ | VArr2 _ _ => true | _ => false end.
(** len(v); strings and dictionaries have one too. *)
Definition any_len (v : pyval) : option nat :=
  match v with
  | VList l | VArr _ l => Some (length l)
  | VArr2 _ rows => Some (length rows)
  | VStr s => Some (length s)
  | VDict d => Some (length d)
  | _ => None
  end.
(** dataset_2420.py:167-170: [for i in CS_types: if i not in (0, 1, 2): raise]. *)
Definition cs_types (v : pyval) : result unit :=
  let one x := do b <- in_tuple [0; 1; 2] false x ;; need b ValueError in
  match v with
  | VList l | VArr _ l => do _ <- rmap one l ;; Ok tt
  | VArr2 dt rows => do _ <- rmap (fun r => one (VArr dt r)) rows ;; Ok tt
  | _ => Ok tt
  end.
(** dataset_2420.py:175-185 *)
Definition cs_names (v : pyval) : result unit :=
  match v with
  | VNone | VStr _ => Ok tt
  | VList l => need (forallb v_str l) TypeError
  | VArr DStr _ => Ok tt
  | VArr _ [] => Ok tt
  | VArr2 _ [] => Ok tt
  | _ => Err TypeError
  end.
Definition run_check (c : check) (v : pyval) : result unit :=
  match c with
  | CInt => dtype_check k_int v TypeError
  | CIntV => dtype_check k_int v ValueError
  | CFloat => dtype_check k_float v TypeError
  | CNum => dtype_check k_num v TypeError
  | CFloatCplx => dtype_check k_fc v TypeError
  | CStrT => unless_none (v_str v) v TypeError
  | CIntT => unless_none (v_int v) v TypeError
  | CFloatT => unless_none (v_float v) v TypeError
  | CIn zs => do b <- in_tuple zs true v ;; need b ValueError
  | CRange lo hi => do b <- in_arange lo hi v ;; unless_none b v ValueError
  | CSeq => unless_none (v_seq v) v TypeError
  | CIntIs => dtype_check_is k_int v
  | CFloatIs => dtype_check_is k_float v
  | CStrIs => need (v_str v || is_none v) TypeError
  | CLen32 => do b <- ne_none v ;; if b then need (match any_len v with Some n => Nat.eqb n 32 | None => false end) ValueError else Ok tt
  | CCsTypes => cs_types v
  | CCsNames => cs_names v
  | GIntT => need (v_int v) TypeError
  | GStrT => need (v_str v) TypeError
  | GInt => do k <- np_kind v ;; need (k_int k) TypeError
  | GNonneg => match v with VInt z => need (0 <=? z) ValueError | _ => Err Unmodelled end
  | GNonempty => match v with VStr s => need (negb (leqb s [])) ValueError | _ => Err Unmodelled end
  end.

(* ------------------------------------------------------------------ *)
(** ** Signatures *)

(** [ps_params] in positional order, the first [ps_required] without default, the
    others with default [ps_default]; [ps_store]: key and argument stored under it. *)
Record psig := { ps_type : option Z; ps_required : nat; ps_default : pyval; ps_params : list string;
                 ps_checks : list (string * check); ps_store : list (string * string) }.
Definition kwargs := list (string * pyval).
Fixpoint kwget (a : kwargs) (k : string) : option pyval :=
  match a with [] => None | (k', v) :: r => if String.eqb k k' then Some v else kwget r k end.
Definition arg (sg : psig) (a : kwargs) (k : string) : pyval :=
  match kwget a k with Some v => v | None => ps_default sg end.
Definition accepts (sg : psig) (a : kwargs) : bool :=
  forallb (fun kv => existsb (String.eqb (fst kv)) (ps_params sg)) a
  && forallb (fun k => existsb (fun kv => String.eqb k (fst kv)) a) (firstn (ps_required sg) (ps_params sg)).
Definition full_dict (sg : psig) (a : kwargs) : dict :=
  match ps_type sg with Some n => [(KS "type", VInt n)] | None => [] end
  ++ map (fun kp => (KS (fst kp), arg sg a (snd kp))) (ps_store sg).
Definition prepare (sg : psig) (a : kwargs) (full : bool) : result dict :=
  if accepts sg a then
    do _ <- rmap (fun pc => run_check (snd pc) (arg sg a (fst pc))) (ps_checks sg) ;;
    Ok (if full then full_dict sg a else check_dict_for_none (full_dict sg a))
  else Err TypeError.

(** dataset_15.py:80-155 [prepare_15] *)
Definition sig15 : psig :=
  {| ps_type := Some 15%Z;
     ps_required := 0;
     ps_default := VNone;
     ps_params :=
      ["node_nums"; "def_cs"; "disp_cs"; "color"; "x"; "y"; "z"]%string;
     ps_checks :=
      [("node_nums", CSeq); ("node_nums", CInt); ("def_cs", CInt); ("disp_cs", CInt); ("color", CInt);
       ("x", CFloat); ("y", CFloat); ("z", CFloat)]%string;
     ps_store :=
      [("node_nums", "node_nums"); ("def_cs", "def_cs"); ("disp_cs", "disp_cs"); ("color", "color");
       ("x", "x"); ("y", "y"); ("z", "z")]%string |}.

(** dataset_18.py:118-182 [prepare_18] *)
Definition sig18 : psig :=
  {| ps_type := Some 18%Z;
     ps_required := 0;
     ps_default := VNone;
     ps_params :=
      ["cs_num"; "cs_type"; "ref_cs_num"; "color"; "method"; "cs_name"; "ref_o"; "x_point"; "xz_point"]%string;
     ps_checks :=
      []%string;
     ps_store :=
      [("cs_num", "cs_num"); ("cs_type", "cs_type"); ("ref_cs_num", "ref_cs_num"); ("color", "color");
       ("method", "method"); ("cs_name", "cs_name"); ("ref_o", "ref_o"); ("x_point", "x_point");
       ("xz_point", "xz_point")]%string |}.

(** dataset_55.py:541-745 [prepare_55] *)
Definition sig55 : psig :=
  {| ps_type := Some 55%Z;
     ps_required := 0;
     ps_default := VNone;
     ps_params :=
      ["id1"; "id2"; "id3"; "id4"; "id5"; "model_type"; "analysis_type"; "data_ch"; "spec_data_type";
       "data_type"; "n_data_per_node"; "r1"; "r2"; "r3"; "r4"; "r5"; "r6"; "load_case"; "mode_n"; "freq";
       "modal_m"; "modal_damp_vis"; "modal_damp_his"; "eig"; "modal_a"; "modal_b"; "freq_step_n";
       "node_nums"]%string;
     ps_checks :=
      [("id1", CStrT); ("id2", CStrT); ("id3", CStrT); ("id4", CStrT); ("id5", CStrT);
       ("model_type", CIn [0; 1; 2; 3]); ("analysis_type", CIn [2; 3; 5; 7]);
       ("data_ch", CIn [0; 1; 2; 3; 4; 5]); ("spec_data_type", CRange 0 19); ("data_type", CIn [2; 5]);
       ("n_data_per_node", CInt); ("r1", CNum); ("r2", CNum); ("r3", CNum); ("r4", CNum); ("r5", CNum);
       ("r6", CNum); ("load_case", CIntT); ("mode_n", CIntT); ("mode_n", CInt); ("freq", CFloat);
       ("modal_damp_vis", CFloatT); ("modal_damp_his", CFloatT); ("eig", CNum); ("modal_a", CNum);
       ("modal_b", CNum); ("freq_step_n", CIntT); ("node_nums", CInt)]%string;
     ps_store :=
      [("id1", "id1"); ("id2", "id2"); ("id3", "id3"); ("id4", "id4"); ("id5", "id5");
       ("model_type", "model_type"); ("analysis_type", "analysis_type"); ("data_ch", "data_ch");
       ("spec_data_type", "spec_data_type"); ("data_type", "data_type");
       ("n_data_per_node", "n_data_per_node"); ("r1", "r1"); ("r2", "r2"); ("r3", "r3"); ("r4", "r4");
       ("r5", "r5"); ("r6", "r6"); ("load_case", "load_case"); ("mode_n", "mode_n"); ("freq", "freq");
       ("modal_m", "modal_m"); ("modal_damp_vis", "modal_damp_vis"); ("modal_damp_his", "modal_damp_his");
       ("eig", "eig"); ("modal_a", "modal_a"); ("modal_b", "modal_b"); ("freq_step_n", "freq_step_n");
       ("node_nums", "node_nums")]%string |}.

(** dataset_58.py:1154-1501 [prepare_58] *)
Definition sig58 : psig :=
  {| ps_type := Some 58%Z;
     ps_required := 0;
     ps_default := VNone;
     ps_params :=
      ["binary"; "id1"; "id2"; "id3"; "id4"; "id5"; "func_type"; "ver_num"; "load_case_id"; "rsp_ent_name";
       "rsp_node"; "rsp_dir"; "ref_ent_name"; "ref_node"; "ref_dir"; "ord_data_type"; "num_pts";
       "abscissa_spacing"; "abscissa_min"; "abscissa_inc"; "z_axis_value"; "abscissa_spec_data_type";
       "abscissa_len_unit_exp"; "abscissa_force_unit_exp"; "abscissa_temp_unit_exp";
       "abscissa_axis_units_lab"; "ordinate_spec_data_type"; "ordinate_len_unit_exp";
       "ordinate_force_unit_exp"; "ordinate_temp_unit_exp"; "ordinate_axis_units_lab";
       "orddenom_spec_data_type"; "orddenom_len_unit_exp"; "orddenom_force_unit_exp";
       "orddenom_temp_unit_exp"; "orddenom_axis_units_lab"; "z_axis_spec_data_type"; "z_axis_len_unit_exp";
       "z_axis_force_unit_exp"; "z_axis_temp_unit_exp"; "z_axis_axis_units_lab"; "data"; "x";
       "spec_data_type"; "byte_ordering"; "fp_format"; "n_ascii_lines"; "n_bytes"]%string;
     ps_checks :=
      [("binary", CIn [0; 1]); ("id1", CStrT); ("id2", CStrT); ("id3", CStrT); ("id4", CStrT); ("id5", CStrT);
       ("func_type", CRange 0 28); ("ver_num", CInt); ("load_case_id", CInt); ("rsp_ent_name", CStrT);
       ("rsp_node", CInt); ("rsp_dir", CRange (-6) 7); ("ref_ent_name", CStrT); ("ref_node", CInt);
       ("ref_dir", CRange (-6) 7); ("ord_data_type", CIn [2; 4; 5; 6]); ("num_pts", CInt);
       ("abscissa_spacing", CIn [0; 1]); ("abscissa_min", CFloat); ("abscissa_inc", CFloat);
       ("z_axis_value", CFloat); ("abscissa_spec_data_type", CRange 0 21); ("abscissa_len_unit_exp", CInt);
       ("abscissa_force_unit_exp", CInt); ("abscissa_temp_unit_exp", CInt);
       ("abscissa_axis_units_lab", CStrT); ("ordinate_spec_data_type", CRange 0 21);
       ("ordinate_len_unit_exp", CInt); ("ordinate_force_unit_exp", CInt); ("ordinate_temp_unit_exp", CInt);
       ("ordinate_axis_units_lab", CStrT); ("orddenom_spec_data_type", CRange 0 21);
       ("orddenom_len_unit_exp", CInt); ("orddenom_force_unit_exp", CInt); ("orddenom_temp_unit_exp", CInt);
       ("orddenom_axis_units_lab", CStrT); ("z_axis_spec_data_type", CRange 0 21);
       ("z_axis_len_unit_exp", CInt); ("z_axis_force_unit_exp", CInt); ("z_axis_temp_unit_exp", CInt);
       ("z_axis_axis_units_lab", CStrT); ("data", CFloatCplx)]%string;
     ps_store :=
      [("binary", "binary"); ("id1", "id1"); ("id2", "id2"); ("id3", "id3"); ("id4", "id4"); ("id5", "id5");
       ("func_type", "func_type"); ("ver_num", "ver_num"); ("load_case_id", "load_case_id");
       ("rsp_ent_name", "rsp_ent_name"); ("rsp_node", "rsp_node"); ("rsp_dir", "rsp_dir");
       ("ref_ent_name", "ref_ent_name"); ("ref_node", "ref_node"); ("ref_dir", "ref_dir");
       ("ord_data_type", "ord_data_type"); ("num_pts", "num_pts"); ("abscissa_spacing", "abscissa_spacing");
       ("abscissa_min", "abscissa_min"); ("abscissa_inc", "abscissa_inc"); ("z_axis_value", "z_axis_value");
       ("abscissa_spec_data_type", "abscissa_spec_data_type");
       ("abscissa_len_unit_exp", "abscissa_len_unit_exp");
       ("abscissa_force_unit_exp", "abscissa_force_unit_exp");
       ("abscissa_temp_unit_exp", "abscissa_temp_unit_exp");
       ("abscissa_axis_units_lab", "abscissa_axis_units_lab");
       ("ordinate_spec_data_type", "ordinate_spec_data_type");
       ("ordinate_len_unit_exp", "ordinate_len_unit_exp");
       ("ordinate_force_unit_exp", "ordinate_force_unit_exp");
       ("ordinate_temp_unit_exp", "ordinate_temp_unit_exp");
       ("ordinate_axis_units_lab", "ordinate_axis_units_lab");
       ("orddenom_spec_data_type", "orddenom_spec_data_type");
       ("orddenom_len_unit_exp", "orddenom_len_unit_exp");
       ("orddenom_force_unit_exp", "orddenom_force_unit_exp");
       ("orddenom_temp_unit_exp", "orddenom_temp_unit_exp");
       ("orddenom_axis_units_lab", "orddenom_axis_units_lab");
       ("z_axis_spec_data_type", "z_axis_spec_data_type"); ("z_axis_len_unit_exp", "z_axis_len_unit_exp");
       ("z_axis_force_unit_exp", "z_axis_force_unit_exp"); ("z_axis_temp_unit_exp", "z_axis_temp_unit_exp");
       ("z_axis_axis_units_lab", "z_axis_axis_units_lab"); ("data", "data"); ("x", "x");
       ("spec_data_type", "spec_data_type"); ("byte_ordering", "byte_ordering"); ("fp_format", "fp_format");
       ("n_ascii_lines", "n_ascii_lines"); ("n_bytes", "n_bytes")]%string |}.

(** dataset_82.py:95-159 [prepare_82] *)
Definition sig82 : psig :=
  {| ps_type := Some 82%Z;
     ps_required := 0;
     ps_default := VNone;
     ps_params :=
      ["trace_num"; "n_nodes"; "color"; "id"; "nodes"]%string;
     ps_checks :=
      [("trace_num", CInt); ("n_nodes", CInt); ("color", CInt); ("id", CStrT); ("nodes", CInt)]%string;
     ps_store :=
      [("trace_num", "trace_num"); ("n_nodes", "n_nodes"); ("color", "color"); ("id", "id");
       ("nodes", "nodes")]%string |}.

(** dataset_151.py:100-211 [prepare_151] *)
Definition sig151 : psig :=
  {| ps_type := Some 151%Z;
     ps_required := 0;
     ps_default := VNone;
     ps_params :=
      ["model_name"; "description"; "db_app"; "date_db_created"; "time_db_created"; "version_db1";
       "version_db2"; "file_type"; "date_db_saved"; "time_db_saved"; "program"; "date_db_written";
       "time_db_written"]%string;
     ps_checks :=
      [("model_name", CStrT); ("description", CStrT); ("db_app", CStrT); ("date_db_created", CStrT);
       ("time_db_created", CStrT); ("version_db1", CInt); ("version_db2", CInt); ("file_type", CIn [0; 1; 2]);
       ("date_db_saved", CStrT); ("time_db_saved", CStrT); ("program", CStrT); ("date_db_written", CStrT);
       ("time_db_written", CStrT)]%string;
     ps_store :=
      [("model_name", "model_name"); ("description", "description"); ("db_app", "db_app");
       ("date_db_created", "date_db_created"); ("time_db_created", "time_db_created");
       ("version_db1", "version_db1"); ("version_db2", "version_db2"); ("file_type", "file_type");
       ("date_db_saved", "date_db_saved"); ("time_db_saved", "time_db_saved"); ("program", "program");
       ("date_db_written", "date_db_written"); ("time_db_written", "time_db_written")]%string |}.

(** dataset_164.py:86-166 [prepare_164] *)
Definition sig164 : psig :=
  {| ps_type := Some 164%Z;
     ps_required := 0;
     ps_default := VNone;
     ps_params :=
      ["units_code"; "units_description"; "temp_mode"; "length"; "force"; "temp"; "temp_offset"]%string;
     ps_checks :=
      [("units_code", CRange 0 10); ("units_description", CStrT); ("temp_mode", CIn [1; 2]);
       ("length", CFloatT); ("force", CFloatT); ("temp", CFloatT); ("temp_offset", CFloatT)]%string;
     ps_store :=
      [("units_code", "units_code"); ("units_description", "units_description"); ("temp_mode", "temp_mode");
       ("length", "length"); ("force", "force"); ("temp", "temp"); ("temp_offset", "temp_offset")]%string |}.

(** dataset_1858.py:254-388 [prepare_1858] *)
Definition sig1858 : psig :=
  {| ps_type := Some 1858%Z;
     ps_required := 0;
     ps_default := VNone;
     ps_params :=
      ["record_num"; "octave_format"; "measurement_run"; "weighting_type"; "window_type"; "amplitude_units";
       "normalization_method"; "abscissa_data_type_qualifier"; "ordinate_numerator_data_type_qualifier";
       "ordinate_denominator_data_type_qualifier"; "z_axis_data_type_qualifier"; "sampling_type";
       "z_rpm_value"; "z_time_value"; "z_order_value"; "num_of_samples"; "user_value_1"; "user_value_2";
       "user_value_3"; "user_value_4"; "exponential_window_damping_factor"; "response_direction";
       "reference_direction"]%string;
     ps_checks :=
      [("record_num", CIntIs); ("octave_format", CIntIs); ("measurement_run", CIntIs);
       ("weighting_type", CIntIs); ("window_type", CIntIs); ("amplitude_units", CIntIs);
       ("normalization_method", CIntIs); ("abscissa_data_type_qualifier", CIntIs);
       ("ordinate_numerator_data_type_qualifier", CIntIs);
       ("ordinate_denominator_data_type_qualifier", CIntIs); ("z_axis_data_type_qualifier", CIntIs);
       ("sampling_type", CIntIs); ("z_rpm_value", CFloatIs); ("z_time_value", CFloatIs);
       ("z_order_value", CFloatIs); ("num_of_samples", CFloatIs); ("user_value_1", CFloatIs);
       ("user_value_2", CFloatIs); ("user_value_3", CFloatIs); ("user_value_4", CFloatIs);
       ("exponential_window_damping_factor", CFloatIs); ("response_direction", CStrIs);
       ("reference_direction", CStrIs)]%string;
     ps_store :=
      [("record_num", "record_num"); ("octave_format", "octave_format");
       ("measurement_run", "measurement_run"); ("weighting_type", "weighting_type");
       ("window_type", "window_type"); ("amplitude_units", "amplitude_units");
       ("normalization_method", "normalization_method");
       ("abscissa_data_type_qualifier", "abscissa_data_type_qualifier");
       ("ordinate_numerator_data_type_qualifier", "ordinate_numerator_data_type_qualifier");
       ("ordinate_denominator_data_type_qualifier", "ordinate_denominator_data_type_qualifier");
       ("z_axis_data_type_qualifier", "z_axis_data_type_qualifier"); ("sampling_type", "sampling_type");
       ("z_rpm_value", "z_rpm_value"); ("z_time_value", "z_time_value"); ("z_order_value", "z_order_value");
       ("num_of_samples", "num_of_samples"); ("user_value_1", "user_value_1");
       ("user_value_2", "user_value_2"); ("user_value_3", "user_value_3"); ("user_value_4", "user_value_4");
       ("exponential_window_damping_factor", "exponential_window_damping_factor");
       ("response_direction", "response_direction"); ("reference_direction", "reference_direction")]%string |}.

(** dataset_2400.py:101-208 [prepare_2400] *)
Definition sig2400 : psig :=
  {| ps_type := Some 2400%Z;
     ps_required := 0;
     ps_default := VNone;
     ps_params :=
      ["model_uid"; "entity_type"; "entity_subtype"; "version_number"; "entity_name"; "part_number";
       "status_mask"; "date"; "time"; "idm_version_id"; "idm_item_id"; "primary_parent_uid";
       "optimization_switches"]%string;
     ps_checks :=
      [("model_uid", CInt); ("entity_type", CInt); ("entity_subtype", CInt); ("version_number", CInt);
       ("entity_name", CStrT); ("part_number", CStrT); ("status_mask", CLen32); ("date", CStrT);
       ("time", CStrT); ("idm_version_id", CInt); ("idm_item_id", CInt); ("primary_parent_uid", CInt);
       ("optimization_switches", CInt)]%string;
     ps_store :=
      [("model_uid", "model_uid"); ("entity_type", "entity_type"); ("entity_subtype", "entity_subtype");
       ("version_number", "version_number"); ("entity_name", "entity_name"); ("part_number", "part_number");
       ("status_mask", "status_mask"); ("date", "date"); ("time", "time");
       ("idm_version_id", "idm_version_id"); ("idm_item_id", "idm_item_id");
       ("primary_parent_uid", "primary_parent_uid");
       ("optimization_switches", "optimization_switches")]%string |}.

(** dataset_2411.py:73-143 [prepare_2411] *)
Definition sig2411 : psig :=
  {| ps_type := Some 2411%Z;
     ps_required := 0;
     ps_default := VNone;
     ps_params :=
      ["node_nums"; "def_cs"; "disp_cs"; "color"; "x"; "y"; "z"]%string;
     ps_checks :=
      [("node_nums", CInt); ("def_cs", CInt); ("disp_cs", CInt); ("color", CInt); ("x", CFloat);
       ("y", CFloat); ("z", CFloat)]%string;
     ps_store :=
      [("node_nums", "node_nums"); ("def_cs", "def_cs"); ("disp_cs", "disp_cs"); ("color", "color");
       ("x", "x"); ("y", "y"); ("z", "z")]%string |}.

(** dataset_2412.py:136-221 [prepare_2412] *)
Definition sig2412 : psig :=
  {| ps_type := Some 2412%Z;
     ps_required := 0;
     ps_default := VNone;
     ps_params :=
      ["element_nums"; "fe_descriptor"; "phys_table"; "mat_table"; "color"; "num_nodes"; "nodes_nums";
       "beam_orientation"; "beam_foreend_cross"; "beam_aftend_cross"]%string;
     ps_checks :=
      [("element_nums", CInt); ("fe_descriptor", CInt); ("phys_table", CInt); ("mat_table", CInt);
       ("color", CInt); ("num_nodes", CInt); ("nodes_nums", CInt); ("beam_orientation", CInt);
       ("beam_foreend_cross", CInt); ("beam_aftend_cross", CInt)]%string;
     ps_store :=
      [("element_nums", "element_nums"); ("fe_descriptor", "fe_descriptor"); ("phys_table", "phys_table");
       ("mat_table", "mat_table"); ("color", "color"); ("num_nodes", "num_nodes");
       ("beam_orientation", "beam_orientation"); ("beam_foreend_cross", "beam_foreend_cross");
       ("beam_aftend_cross", "beam_aftend_cross"); ("nodes_nums", "nodes_nums")]%string |}.

(** dataset_2414.py:854-1140 [prepare_2414] *)
Definition sig2414 : psig :=
  {| ps_type := Some 2414%Z;
     ps_required := 0;
     ps_default := VNone;
     ps_params :=
      ["analysis_dataset_label"; "analysis_dataset_name"; "dataset_location"; "id1"; "id2"; "id3"; "id4";
       "id5"; "model_type"; "analysis_type"; "data_characteristic"; "result_type"; "data_type";
       "number_of_data_values_for_the_data_component"; "design_set_id"; "iteration_number"; "solution_set_id";
       "boundary_condition"; "load_set"; "mode_number"; "time_step_number"; "frequency_number";
       "creation_option"; "number_retained"; "time"; "frequency"; "eigenvalue"; "modal_mass";
       "viscous_damping"; "hysteretic_damping"; "real_part_eigenvalue"; "imaginary_part_eigenvalue";
       "real_part_of_modal_A_or_modal_mass"; "imaginary_part_of_modal_A_or_modal_mass";
       "real_part_of_modal_B_or_modal_mass"; "imaginary_part_of_modal_B_or_modal_mass"; "d"; "node_nums"; "x";
       "y"; "z"]%string;
     ps_checks :=
      [("analysis_dataset_label", CInt); ("analysis_dataset_name", CStrT);
       ("dataset_location", CIn [1; 2; 3; 5]); ("id1", CStrT); ("id2", CStrT); ("id3", CStrT); ("id4", CStrT);
       ("id5", CStrT); ("model_type", CIn [0; 1; 2; 3]); ("analysis_type", CIn [0; 1; 2; 3; 4; 5; 6; 7; 9]);
       ("data_characteristic", CIn [0; 1; 2; 3; 4; 6]); ("result_type", CIntT);
       ("data_type", CIn [1; 2; 4; 5; 6]); ("number_of_data_values_for_the_data_component", CInt);
       ("design_set_id", CInt); ("iteration_number", CInt); ("solution_set_id", CInt);
       ("boundary_condition", CInt); ("load_set", CInt); ("mode_number", CInt); ("time_step_number", CInt);
       ("frequency_number", CInt); ("creation_option", CInt); ("number_retained", CInt); ("time", CFloat);
       ("frequency", CFloat); ("eigenvalue", CFloat); ("modal_mass", CFloat); ("viscous_damping", CFloat);
       ("hysteretic_damping", CFloat); ("real_part_eigenvalue", CFloat);
       ("imaginary_part_eigenvalue", CFloat); ("real_part_of_modal_A_or_modal_mass", CFloat);
       ("imaginary_part_of_modal_A_or_modal_mass", CFloat); ("real_part_of_modal_B_or_modal_mass", CFloat);
       ("imaginary_part_of_modal_B_or_modal_mass", CFloat); ("node_nums", CInt); ("d", CFloat);
       ("x", CFloatCplx); ("y", CFloatCplx); ("z", CFloatCplx)]%string;
     ps_store :=
      [("analysis_dataset_label", "analysis_dataset_label");
       ("analysis_dataset_name", "analysis_dataset_name"); ("dataset_location", "dataset_location");
       ("id1", "id1"); ("id2", "id2"); ("id3", "id3"); ("id4", "id4"); ("id5", "id5");
       ("model_type", "model_type"); ("analysis_type", "analysis_type");
       ("data_characteristic", "data_characteristic"); ("result_type", "result_type");
       ("data_type", "data_type");
       ("number_of_data_values_for_the_data_component", "number_of_data_values_for_the_data_component");
       ("design_set_id", "design_set_id"); ("iteration_number", "iteration_number");
       ("solution_set_id", "solution_set_id"); ("boundary_condition", "boundary_condition");
       ("load_set", "load_set"); ("mode_number", "mode_number"); ("time_step_number", "time_step_number");
       ("frequency_number", "frequency_number"); ("creation_option", "creation_option");
       ("number_retained", "number_retained"); ("time", "time"); ("frequency", "frequency");
       ("eigenvalue", "eigenvalue"); ("modal_mass", "modal_mass"); ("viscous_damping", "viscous_damping");
       ("hysteretic_damping", "hysteretic_damping"); ("real_part_eigenvalue", "real_part_eigenvalue");
       ("imaginary_part_eigenvalue", "imaginary_part_eigenvalue");
       ("real_part_of_modal_A_or_modal_mass", "real_part_of_modal_A_or_modal_mass");
       ("imaginary_part_of_modal_A_or_modal_mass", "imaginary_part_of_modal_A_or_modal_mass");
       ("real_part_of_modal_B_or_modal_mass", "real_part_of_modal_B_or_modal_mass");
       ("imaginary_part_of_modal_B_or_modal_mass", "imaginary_part_of_modal_B_or_modal_mass"); ("d", "d");
       ("node_nums", "node_nums"); ("x", "x"); ("y", "y"); ("z", "z")]%string |}.

(** dataset_2420.py:113-202 [prepare_2420] *)
Definition sig2420 : psig :=
  {| ps_type := Some 2420%Z;
     ps_required := 0;
     ps_default := VNone;
     ps_params :=
      ["Part_UID"; "Part_Name"; "CS_sys_labels"; "CS_types"; "CS_colors"; "CS_names"; "CS_matrices"]%string;
     ps_checks :=
      [("Part_UID", CInt); ("Part_Name", CStrT); ("CS_sys_labels", CInt); ("CS_types", CCsTypes);
       ("CS_types", CIntV); ("CS_colors", CInt); ("CS_names", CCsNames); ("CS_matrices", CFloat)]%string;
     ps_store :=
      [("Part_UID", "Part_UID"); ("Part_Name", "Part_Name"); ("CS_sys_labels", "CS_sys_labels");
       ("CS_types", "CS_types"); ("CS_colors", "CS_colors"); ("CS_names", "CS_names");
       ("CS_matrices", "CS_matrices")]%string |}.

(** dataset_2429.py:183-269 [prepare_group] *)
Definition siggroup2429 : psig :=
  {| ps_type := None;
     ps_required := 4;
     ps_default := VInt 0;
     ps_params :=
      ["group_number"; "group_name"; "entity_type_code"; "entity_tag"; "active_constraint_set_no_for_group";
       "active_restraint_set_no_for_group"; "active_load_set_no_for_group"; "active_dof_set_no_for_group";
       "active_temperature_set_no_for_group"; "active_contact_set_no_for_group"]%string;
     ps_checks :=
      [("group_number", GIntT); ("group_name", GStrT); ("entity_type_code", GInt); ("entity_tag", GInt);
       ("active_constraint_set_no_for_group", GIntT); ("active_restraint_set_no_for_group", GIntT);
       ("active_load_set_no_for_group", GIntT); ("active_dof_set_no_for_group", GIntT);
       ("active_temperature_set_no_for_group", GIntT); ("active_contact_set_no_for_group", GIntT);
       ("group_number", GNonneg); ("group_name", GNonempty); ("active_constraint_set_no_for_group", GNonneg);
       ("active_restraint_set_no_for_group", GNonneg); ("active_load_set_no_for_group", GNonneg);
       ("active_dof_set_no_for_group", GNonneg); ("active_temperature_set_no_for_group", GNonneg);
       ("active_contact_set_no_for_group", GNonneg)]%string;
     ps_store :=
      [("group_number", "group_number"); ("group_name", "group_name");
       ("entity_type_code", "entity_type_code"); ("entity_tag", "entity_tag");
       ("active_constraint_set_no_for_group", "active_constraint_set_no_for_group");
       ("active_restraint_set_no_for_group", "active_restraint_set_no_for_group");
       ("active_load_set_no_for_group", "active_load_set_no_for_group");
       ("active_dof_set_no_for_group", "active_dof_set_no_for_group");
       ("active_temperature_set_no_for_group", "active_dof_set_no_for_group");
       ("active_contact_set_no_for_group", "active_dof_set_no_for_group")]%string |}.

(** dataset_2467.py:154-250 [prepare_group] *)
Definition siggroup2467 : psig :=
  {| ps_type := None;
     ps_required := 6;
     ps_default := VInt 0;
     ps_params :=
      ["group_number"; "group_name"; "entity_type_code"; "entity_tag"; "entity_node_leaf_id";
       "entity_component_id"; "active_constraint_set_no_for_group"; "active_restraint_set_no_for_group";
       "active_load_set_no_for_group"; "active_dof_set_no_for_group"; "active_temperature_set_no_for_group";
       "active_contact_set_no_for_group"]%string;
     ps_checks :=
      [("group_number", GIntT); ("group_name", GStrT); ("entity_type_code", GInt); ("entity_tag", GInt);
       ("entity_node_leaf_id", GInt); ("entity_component_id", GInt);
       ("active_constraint_set_no_for_group", GIntT); ("active_restraint_set_no_for_group", GIntT);
       ("active_load_set_no_for_group", GIntT); ("active_dof_set_no_for_group", GIntT);
       ("active_temperature_set_no_for_group", GIntT); ("active_contact_set_no_for_group", GIntT);
       ("group_number", GNonneg); ("group_name", GNonempty); ("active_constraint_set_no_for_group", GNonneg);
       ("active_restraint_set_no_for_group", GNonneg); ("active_load_set_no_for_group", GNonneg);
       ("active_dof_set_no_for_group", GNonneg); ("active_temperature_set_no_for_group", GNonneg);
       ("active_contact_set_no_for_group", GNonneg)]%string;
     ps_store :=
      [("group_number", "group_number"); ("group_name", "group_name");
       ("entity_type_code", "entity_type_code"); ("entity_tag", "entity_tag");
       ("entity_node_leaf_id", "entity_node_leaf_id"); ("entity_component_id", "entity_component_id");
       ("active_constraint_set_no_for_group", "active_constraint_set_no_for_group");
       ("active_restraint_set_no_for_group", "active_restraint_set_no_for_group");
       ("active_load_set_no_for_group", "active_load_set_no_for_group");
       ("active_dof_set_no_for_group", "active_dof_set_no_for_group");
       ("active_temperature_set_no_for_group", "active_dof_set_no_for_group");
       ("active_contact_set_no_for_group", "active_dof_set_no_for_group")]%string |}.

(* ------------------------------------------------------------------ *)
(** ** Sets of groups *)

(** dataset_2429.py:272-320 and dataset_2467.py:252-300: every group is checked by
    a positional call of the [prepare_group] of the same file; its result is not used. *)
Definition group_values (item : pyval) : result (list pyval) :=
  rmap (vix item) ("group_number" :: "group_name" :: "entity_type_code" :: "entity_tag" :: set_keys)%string.
Definition prepare_groups (n : Z) (sg : psig) (groups : pyval) (full : bool) : result dict :=
  match groups with
  | VList l =>
      do _ <- rmap (fun item => do vs <- group_values item ;; prepare sg (combine (ps_params sg) vs) false) l ;;
      let d := [(KS "type", VInt n); (KS "groups", groups)] in
      Ok (if full then d else check_dict_for_none d)
  | _ => Err TypeError
  end.
Definition prepare_2429 := prepare_groups 2429 siggroup2429.
Definition prepare_2467 := prepare_groups 2467 siggroup2467.

(* ------------------------------------------------------------------ *)
(** ** tools.py:130-161 [convert_dataset_2412_to_82] *)

(** The variable [nodes]: a list at first, an array after the first set with quads. *)
Record acc82 := { a_arr : bool; a_nodes : list pyval }.
(** tools.py:138-150: entries appended for one quad. *)
Definition quad_entries (row : pyval) : result (list pyval) :=
  let n i := at_ (Ok row) i in
  rseq [n 0; n 1; Ok (VInt 0); n 1; n 2; Ok (VInt 0); n 2; n 3; Ok (VInt 0); n 3; n 0; Ok (VInt 0)].
Definition append_quads (rows : list pyval) (s : acc82) : result acc82 :=
  match rows with
  | [] => Ok s
  | _ => if a_arr s then Err AttributeError
         else do es <- rmap quad_entries rows ;; Ok {| a_arr := false; a_nodes := a_nodes s ++ concat es |}
  end.
(** tools.py:151 [nodes = np.array(nodes)]: integers or nothing; other contents are not modelled. *)
Definition nodes_array (l : list pyval) : result pyval :=
  do k <- np_kind (VList l) ;;
  match k, l with
  | KInt, _ => if forallb v_int l then Ok (VArr DInt l) else Err Unmodelled
  | KFloat, [] => Ok (VArr DFloat [])
  | _, _ => Err Unmodelled
  end.
(** tools.py:136-160: the loop, [i] the index of the set. *)
Fixpoint convert_loop (i : Z) (l : list dict) (s : acc82) : result (list dict) :=
  match l with
  | [] => Ok []
  | d :: r =>
      do ty <- ix d "type" ;;
      if py_eqZ ty 2412 && dmem d (KS "quad") then
        do q <- ix d "quad" ;;
        do rv <- vix q "nodes_nums" ;;
        do rows <- to_seq rv ;;
        do s1 <- append_quads rows s ;;
        do arr <- nodes_array (a_nodes s1) ;;
        do n <- py_len arr ;;
        do d82 <- prepare sig82 [("trace_num", VInt i); ("n_nodes", VInt (Z.of_nat n)); ("nodes", arr);
                                 ("color", VInt 0); ("id", VStr [])]%string true ;;
        do ds <- convert_loop (i + 1) r {| a_arr := true; a_nodes := a_nodes s1 |} ;;
        Ok (d82 :: ds)
      else convert_loop (i + 1) r s
  end.
Definition convert_2412_to_82 (l : list dict) : result (list dict) :=
  convert_loop 0 l {| a_arr := false; a_nodes := [] |}.
