(** Models of pyuff/datasets/dataset_151.py, dataset_164.py, dataset_1858.py,
    dataset_2400.py (writers and extractors). *)
From Verif Require Import PyBase PyNum PyVal Utf8 Tools DsNodes.
Open Scope Z_scope.

(** Local date and time texts from time.strftime('%d-%b-%y'), ('%H:%M:%S'). *)
Record clock := { now_date : str; now_time : str }.

(** dataset_151.py:47-77 [_write151] *)
Definition write151 (c : clock) (d : dict) : wplan :=
  let ds := VStr (now_date c) in
  let ts := VStr (now_time c) in
  let d1 := opt_fields d
    [(KS "version_db1", VStr (lit "0")); (KS "version_db2", VStr (lit "0")); (KS "file_type", VStr (lit "0"));
     (KS "date_db_created", ds); (KS "time_db_created", ts);
     (KS "date_db_saved", ds); (KS "time_db_saved", ts);
     (KS "date_file_written", ds); (KS "time_file_written", ts)] in
  {| wp_dict := d1;
     wp_items :=
       [ hdr_lines 151;
         txt "%-80s\n" [ix d1 "model_name"];
         txt "%-80s\n" [ix d1 "description"];
         txt "%-80s\n" [ix d1 "db_app"];
         txt "%-10s%-10s%10s%10s%10s\n"
           [ix d1 "date_db_created"; ix d1 "time_db_created"; ix d1 "version_db1"; ix d1 "version_db2"; ix d1 "file_type"];
         txt "%-10s%-10s\n" [ix d1 "date_db_saved"; ix d1 "time_db_saved"];
         txt "%-80s\n" [ix d1 "program"];
         txt "%-10s%-10s\n" [ix d1 "date_file_written"; ix d1 "time_file_written"];
         end_line ];
     wp_wrap := wrap_write "151" |}.

(** A run of [dset.update(_parse_header_line(split_data[i], ...))]. *)
Record hrec := { h_line : nat; h_min : nat; h_widths : list nat; h_types : list Z; h_names : list string }.
Fixpoint header_recs (lines : list str) (d : dict) (l : list hrec) : result dict :=
  match l with
  | [] => Ok d
  | h :: r =>
      do line <- ln lines (h_line h) ;;
      do e <- parse_header_line line (h_min h) (h_widths h) (h_types h) (h_names h) ;;
      header_recs lines (dupdate d e) r
  end.
Definition H (i m : nat) (w : list nat) (t : list Z) (n : list string) : hrec :=
  {| h_line := i; h_min := m; h_widths := w; h_types := t; h_names := n |}.

(** dataset_151.py:80-97 [_extract151] *)
Definition recs151 : list hrec :=
  [ H 2 1 [80]%nat [1] ["model_name"]%string;
    H 3 1 [80]%nat [1] ["description"]%string;
    H 4 1 [80]%nat [1] ["db_app"]%string;
    H 5 2 [10;10;10;10;10]%nat [1;1;2;2;2]
      ["date_db_created"; "time_db_created"; "version_db1"; "version_db2"; "file_type"]%string;
    H 6 1 [10;10]%nat [1;1] ["date_db_saved"; "time_db_saved"]%string;
    H 7 1 [80]%nat [1] ["program"]%string;
    H 8 1 [10;10]%nat [1;1] ["date_file_written"; "time_file_written"]%string ].
Definition extract151 (block : str) : result dict :=
  try_any (header_recs (splitlines_str true block) [(KS "type", VInt 151)] recs151) (read_error "151").

(** dataset_164.py:55-58: 'e+' becomes 'D+', 'e-' becomes 'D-'. *)
Definition e_to_D (s : str) : str := replace2 101 45 68 45 (replace2 101 43 68 43 s).

(** dataset_164.py:47-65 [_write164] *)
Definition write164 (d : dict) : wplan :=
  let d1 := opt_fields d [(KS "units_description", VStr (lit "User unit system")); (KS "temp_mode", VInt 1)] in
  {| wp_dict := d1;
     wp_items :=
       [ hdr_lines 164;
         txt "%10i%20s%10i\n" [ix d1 "units_code"; ix d1 "units_description"; ix d1 "temp_mode"];
         WTxt (do s <- pct "%25.16e%25.16e%25.16e\n%25.16e\n"
                         [ix d1 "length"; ix d1 "force"; ix d1 "temp"; ix d1 "temp_offset"] ;;
               Ok (e_to_D s));
         end_line ];
     wp_wrap := wrap_write "164" |}.

(** dataset_164.py:77-80: one of the four factors. *)
Definition factor164 (toks : list str) (i : nat) : result float :=
  do t <- ln toks i ;; py_float (replace1 100 101 (lower t)).

(** dataset_164.py:68-83 [_extract164] *)
Definition extract164 (block : str) : result dict :=
  try_any
    (let lines := splitlines_str true block in
     do d0 <- header_recs lines [(KS "type", VInt 164)]
       [H 2 1 [10;20;10]%nat [2;1;2] ["units_code"; "units_description"; "temp_mode"]%string] ;;
     let toks := split (join (skipn 3 lines)) in
     do a <- factor164 toks 0 ;;
     do b <- factor164 toks 1 ;;
     do c <- factor164 toks 2 ;;
     do e <- factor164 toks 3 ;;
     Ok (dupdate d0 [(KS "length", VFloat a); (KS "force", VFloat b); (KS "temp", VFloat c); (KS "temp_offset", VFloat e)]))
    (read_error "164").

(** dataset_1858.py:108-167 [_write1858] *)
Definition ints1858 : list string :=
  ["weighting_type"; "window_type"; "amplitude_units"; "normalization_method";
   "abscissa_data_type_qualifier"; "ordinate_numerator_data_type_qualifier";
   "ordinate_denominator_data_type_qualifier"; "z_axis_data_type_qualifier"; "sampling_type"]%string.
Definition write1858 (d : dict) : wplan :=
  {| wp_dict := d;
     wp_items :=
       [ hdr_lines 1858;
         txt "%10i%10i%10i%10i%10i%10i\n"
           [ix d "record_num"; ix d "octave_format"; ix d "measurement_run"; I 0; I 0; I 0];
         txt "%6i%6i%6i%6i%6i%6i%6i%6i%6i%6i%6i%6i\n" (map (ix d) ints1858 ++ [I 0; I 0; I 0]);
         txt "%15.7e%15.7e%15.7e%15.7e%15.7e\n"
           [ix d "z_rpm_value"; ix d "z_time_value"; ix d "z_order_value"; ix d "num_of_samples"; I 0];
         txt "%15.7e%15.7e%15.7e%15.7e%15.7e\n"
           [ix d "user_value_1"; ix d "user_value_2"; ix d "user_value_3"; ix d "user_value_4";
            ix d "exponential_window_damping_factor"];
         txt "%15.7e%15.7e%15.7e%15.7e%15.7e\n" [I 0; I 0; I 0; I 0; I 0];
         txt "%-4s%2s%-4s\n" [ix d "response_direction"; Sv ""; ix d "reference_direction"];
         txt "%-80s\n" [Sv "NONE"];
         end_line ];
     wp_wrap := wrap_plain "1858" |}.

(** dataset_1858.py:170-251 [_extract1858] *)
Definition recs1858 : list hrec :=
  [ H 2 6 [12;12;12;12;12;12]%nat [2;2;2;-1;-1;-1] ["record_num"; "octave_format"; "measurement_run"; ""; ""; ""]%string;
    H 3 12 [6;6;6;6;6;6;6;6;6;6;6;6]%nat [2;2;2;2;2;2;2;2;2;-1;-1;-1] (ints1858 ++ [""; ""; ""]%string);
    H 4 5 [15;15;15;15;15]%nat [3;3;3;3;-1] ["z_rpm_value"; "z_time_value"; "z_order_value"; "num_of_samples"; ""]%string;
    H 5 5 [15;15;15;15;15]%nat [3;3;3;3;3]
      ["user_value_1"; "user_value_2"; "user_value_3"; "user_value_4"; "exponential_window_damping_factor"]%string;
    H 7 3 [4;2;4]%nat [1;-1;1] ["response_direction"; ""; "reference_direction"]%string ].
Definition extract1858 (block : str) : result dict :=
  try_any (header_recs (firstn 8 (splitlines_str true block)) [(KS "type", VInt 1858)] recs1858) (read_error "1858").

(** dataset_2400.py:46-78 [_write2400] *)
Definition defaults2400 : dict :=
  [(KS "model_uid", VInt 0); (KS "entity_type", VInt 0); (KS "entity_subtype", VInt 0); (KS "version_number", VInt 0);
   (KS "entity_name", VStr []); (KS "part_number", VStr []); (KS "status_mask", VList (repeat (VInt 0) 32));
   (KS "date", VStr []); (KS "time", VStr []); (KS "idm_version_id", VInt 0); (KS "idm_item_id", VInt 0);
   (KS "primary_parent_uid", VInt 0); (KS "optimization_switches", VInt 0)].
Definition write2400 (d : dict) : wplan :=
  let d1 := opt_fields d defaults2400 in
  {| wp_dict := d1;
     wp_items :=
       [ hdr_lines 2400;
         txt "%12i%6i%6i%12i\n" [ix d1 "model_uid"; ix d1 "entity_type"; ix d1 "entity_subtype"; ix d1 "version_number"];
         txt "%-80s\n" [ix d1 "entity_name"];
         txt "%-80s\n" [ix d1 "part_number"];
         WTxt (do v <- ix d1 "status_mask" ;;
               do l <- to_seq v ;;
               do parts <- rmap (fun e => pct "%2i" [Ok e]) l ;;
               pct "%s\n" [Ok (VStr (concat parts))]);
         txt "%-10s%-10s%12i%12i%12i\n"
           [ix d1 "date"; ix d1 "time"; ix d1 "idm_version_id"; ix d1 "idm_item_id"; ix d1 "primary_parent_uid"];
         txt "%12i\n" [ix d1 "optimization_switches"];
         end_line ];
     wp_wrap := wrap_write "2400" |}.

(** dataset_2400.py:81-98 [_extract2400]; the mask is 32 two-column fields. *)
Definition extract2400 (block : str) : result dict :=
  try_any
    (let lines := splitlines_str true block in
     do d0 <- header_recs lines [(KS "type", VInt 2400)]
       [ H 2 4 [12;6;6;12]%nat [2;2;2;2] ["model_uid"; "entity_type"; "entity_subtype"; "version_number"]%string;
         H 3 1 [80]%nat [1] ["entity_name"]%string;
         H 4 1 [80]%nat [1] ["part_number"]%string ] ;;
     do l5 <- ln lines 5 ;;
     do mask <- parse_ints (chop 2 32 l5) ;;
     header_recs lines (dput d0 (KS "status_mask") (VList (map VInt mask)))
       [ H 6 5 [10;10;12;12;12]%nat [1;1;2;2;2] ["date"; "time"; "idm_version_id"; "idm_item_id"; "primary_parent_uid"]%string;
         H 7 1 [12]%nat [2] ["optimization_switches"]%string ])
    (read_error "2400").
