(** Model of pyuff/pyuff.py: the class UFF. *)
From Verif Require Import PyBase PyNum PyVal Utf8 Tools DsNodes DsHeaders DsGroups Ds55 Ds58 Ds2414.
Open Scope Z_scope.

(** The delimiter searched by refresh, pyuff.py:188. *)
Definition TAG : bytes := lit "    -1".

(** pyuff.py:191-199: whether an occurrence at [i] is accepted. *)
Definition accept (data : bytes) (i : nat) : bool :=
  if Nat.eqb (i + 6) (length data) then true
  else if Nat.ltb (i + 6) (length data)
          && match nth_error data (i + 6) with Some c => is_lb_bytes c | None => false end
  then true
  else Nat.ltb (i + 80) (length data) && leqb (slice (i + 6) (i + 80) data) (repeat blank 74).

(** pyuff.py:183-199: the search loop, starting at position [start]; every
    iteration advances, so [S (length data)] is enough fuel. *)
Fixpoint scan (fuel : nat) (data : bytes) (start : nat) : result (list nat) :=
  match fuel with
  | O => Err OutOfFuel
  | S f =>
      match py_find TAG data start with
      | None => Ok []
      | Some i => do r <- scan f data (S i) ;; Ok (if accept data i then i :: r else r)
      end
  end.
Definition block_inds (data : bytes) : result (list nat) := scan (S (length data)) data 0.

(** Attributes of the object.  A row of [block_ind] is (start, end) with the end
    position excluded: the source stores end - 1 and reads [ei - si + 1] bytes. *)
Record uff := { block_ind : list (nat * nat); refreshed : bool; n_sets : nat;
                set_types : list Z; set_formats : list Z }.
(** pyuff.py:110-114 *)
Definition uff0 : uff := {| block_ind := []; refreshed := false; n_sets := 0; set_types := []; set_formats := [] |}.

(** pyuff.py:203-216: start and end positions, [floor(len/2)] pairs. *)
Fixpoint pairs (l : list nat) : list (nat * nat) :=
  match l with
  | a :: b :: r => (a, b) :: pairs r
  | _ => []
  end.
Definition extract_block (data : bytes) (p : nat * nat) : bytes := slice (fst p) (snd p) data.
(** pyuff.py:227-234: type of a block; 0 remains if the conversion fails. *)
Definition block_type (b : bytes) : Z :=
  match nth_error (splitlines_bytes false b) 1 with
  | Some l => match py_int_bytes (firstn 6 l) with Ok z => z | Err _ => 0 end
  | None => 0
  end.

(** pyuff.py:164-243 [refresh]; [file] = [None] if it does not exist.  The format
    test applies [lower] to an integer, which raises and is ignored, so the formats
    stay 0 (pyuff.py:230).  Access errors are not modelled. *)
Definition refresh (file : option bytes) (u : uff) : result (uff * bool) :=
  match file with
  | None => Ok ({| block_ind := block_ind u; refreshed := false; n_sets := n_sets u;
                   set_types := set_types u; set_formats := set_formats u |}, false)
  | Some data =>
      do inds <- block_inds data ;;
      match pairs inds with
      | [] => Ok ({| block_ind := block_ind u; refreshed := true; n_sets := n_sets u;
                     set_types := set_types u; set_formats := set_formats u |}, true)
      | ps => Ok ({| block_ind := ps; refreshed := true; n_sets := length ps;
                     set_types := map (fun p => block_type (extract_block data p)) ps;
                     set_formats := map (fun _ => 0) ps |}, true)
      end
  end.
(** pyuff.py:89-116 [UFF(filename)] *)
Definition uff_new (file : option bytes) : result uff := do '(u, _) <- refresh file uff0 ;; Ok u.
(** pyuff.py:122-147 [get_n_sets], [get_set_types], [get_set_formats]: the
    object afterwards and the value. *)
Definition sync (file : option bytes) (u : uff) : result uff :=
  if refreshed u then Ok u else do '(u', _) <- refresh file u ;; Ok u'.
Definition get_n_sets (file : option bytes) (u : uff) : result (uff * nat) :=
  do u <- sync file u ;; Ok (u, n_sets u).
Definition get_set_types (file : option bytes) (u : uff) : result (uff * list Z) :=
  do u <- sync file u ;; Ok (u, set_types u).
Definition get_set_formats (file : option bytes) (u : uff) : result (uff * list Z) :=
  do u <- sync file u ;; Ok (u, set_formats u).

(** pyuff.py:366-401: dispatch on the type of the set. *)
Definition extract_set (ty : Z) (block : bytes) (header_only : bool) : result dict :=
  let text := utf8_decode block in
  if ty =? 15 then extract15 text
  else if ty =? 18 then extract18 text
  else if ty =? 55 then extract55 text
  else if ty =? 58 then extract58 block header_only
  else if ty =? 82 then extract82 text
  else if ty =? 151 then extract151 text
  else if ty =? 164 then extract164 text
  else if ty =? 1858 then extract1858 text
  else if ty =? 2400 then extract2400 text
  else if ty =? 2411 then extract2411 text
  else if ty =? 2412 then extract2412 text
  else if ty =? 2414 then extract2414 text
  else if ty =? 2420 then extract2420 text
  else if ty =? 2429 then extract2429 text
  else if ty =? 2467 then extract2467 text
  else Ok [(KS "type", VInt ty)].

(** pyuff.py:324-401 [_read_set] (set number an int). *)
Definition read_set (file : option bytes) (u : uff) (n : Z) (header_only : bool) : result (uff * dict) :=
  match file with
  | None => Err (PyException "Cannot read from a non-existing file")
  | Some data =>
      do u <- sync file u ;;
      if (Z.of_nat (n_sets u) - 1 <? n) || (n <? 0)
      then Err (PyException "Cannot read data-set: number to high or to low")
      else
        do p <- of_option IndexError (nth_error (block_ind u) (Z.to_nat n)) ;;
        do ty <- of_option IndexError (nth_error (set_types u) (Z.to_nat n)) ;;
        do d <- extract_set ty (extract_block data p) header_only ;;
        Ok (u, d)
  end.

(** Argument [setn] of read_sets: None, one number, or a list of numbers. *)
Inductive selection := SelAll | SelOne (n : Z) | SelList (l : list Z).
Inductive read_result := One (d : dict) | Many (l : list dict).

(** pyuff.py:272-279: the reads in turn. *)
Fixpoint read_all (file : option bytes) (u : uff) (l : list Z) (ho : bool) : result (uff * list dict) :=
  match l with
  | [] => Ok (u, [])
  | n :: r => do '(u, d) <- read_set file u n ho ;; do '(u, ds) <- read_all file u r ho ;; Ok (u, d :: ds)
  end.
Definition shape_result (l : list dict) : read_result :=
  match l with [d] => One d | _ => Many l end.

(** pyuff.py:244-282 [read_sets]: the range is fixed before the refresh. *)
Definition read_sets (file : option bytes) (u : uff) (s : selection) (ho : bool) : result (uff * read_result) :=
  let range := match s with
               | SelAll => map Z.of_nat (seq 0 (n_sets u))
               | SelOne n => [n]
               | SelList l => l
               end in
  match file with
  | None => Err (PyException "Cannot read from a non-existing file")
  | Some _ =>
      do u <- sync file u ;;
      do '(u, ds) <- try_any (read_all file u range ho) (PyException "Error when reading data-set(s).") ;;
      Ok (u, shape_result ds)
  end.

(** Writing modes; [mode.lower()] is compared, pyuff.py:311-322. *)
Inductive wmode := Overwrite | Add.
Definition parse_mode (m : str) : result wmode :=
  if leqb (lower m) (lit "overwrite") then Ok Overwrite
  else if leqb (lower m) (lit "add") then Ok Add
  else Err (PyException "Unknown mode").

(** pyuff.py:444-476: dispatch on the type. *)
Definition write_dispatch (c : clock) (m : wmode) (force_double : bool) (ty : pyval) (d : dict) : wplan :=
  let is := py_eqZ ty in
  if is 15 then write15 d
  else if is 18 then write18 d
  else if is 55 then write55 d
  else if is 58 then write58 (match m with Overwrite => true | Add => false end) force_double d
  else if is 82 then write82 d
  else if is 151 then write151 c d
  else if is 164 then write164 d
  else if is 1858 then write1858 d
  else if is 2400 then write2400 d
  else if is 2411 then write2411 d
  else if is 2412 then write2412 d
  else if is 2414 then write2414 d
  else if is 2420 then write2420 d
  else if is 2429 then write2429 d
  else if is 2467 then write2467 d
  else {| wp_dict := d; wp_items := []; wp_wrap := fun e => e |}.

(** State after a call: file, object, the caller's dictionary, exception. *)
Record wstate := { w_file : option bytes; w_uff : uff; w_dict : dict; w_exc : option exc }.

(** pyuff.py:403-482 [_write_set]: the file is opened (and created or truncated)
    first; after an exception the object is not refreshed. *)
Definition write_set (c : clock) (m : wmode) (force_double : bool) (file : option bytes) (u : uff) (d : dict) : wstate :=
  let start := match m, file with Add, Some b => b | _, _ => [] end in
  match dget d (KS "type") with
  | None => {| w_file := Some start; w_uff := u; w_dict := d;
               w_exc := Some (PyException "Data-set's dictionary is missing the required 'type' key") |}
  | Some ty =>
      let rd := match dget d (KS "data") with
                | None => Ok d
                | Some v => do v' <- np_nan_to_num v ;; Ok (dput d (KS "data") v')
                end in
      match rd with
      | Err e => {| w_file := Some start; w_uff := u; w_dict := d; w_exc := Some e |}
      | Ok d1 =>
          let p := write_dispatch c m force_double ty d1 in
          match run_items start (wp_items p) with
          | (b, Some e) => {| w_file := Some b; w_uff := u; w_dict := wp_dict p; w_exc := Some (wp_wrap p e) |}
          | (b, None) =>
              match refresh (Some b) u with
              | Ok (u', _) => {| w_file := Some b; w_uff := u'; w_dict := wp_dict p; w_exc := None |}
              | Err e => {| w_file := Some b; w_uff := u; w_dict := wp_dict p; w_exc := Some e |}
              end
          end
      end
  end.

(** pyuff.py:284-322 [write_sets] on a list: stops at the first exception.  The
    changed dictionaries are not returned (see [write_set]). *)
Fixpoint write_list (c : clock) (m : wmode) (fd : bool) (file : option bytes) (u : uff) (l : list dict)
  : option bytes * uff * option exc :=
  match l with
  | [] => (file, u, None)
  | d :: r =>
      let s := write_set c m fd file u d in
      match w_exc s with
      | Some e => (w_file s, w_uff s, Some e)
      | None => write_list c Add fd (w_file s) (w_uff s) r
      end
  end.
Definition write_sets (c : clock) (file : option bytes) (u : uff) (ds : list dict) (mode : str) (fd : bool)
  : option bytes * uff * option exc :=
  match ds with
  | [] => (file, u, Some (PyException "Nothing to write"))
  | _ => match parse_mode mode with
         | Err e => (file, u, Some e)
         | Ok m => write_list c m fd file u ds
         end
  end.
