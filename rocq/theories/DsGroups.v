(** Models of pyuff/datasets/dataset_2412.py, dataset_2429.py, dataset_2467.py
    (writers and extractors). *)
From Verif Require Import PyBase PyNum PyVal Utf8 Tools DsNodes DsHeaders.
Open Scope Z_scope.

(** [elem['k']] for a value that should be a dictionary. *)
Definition vix (v : pyval) (k : string) : result pyval :=
  match v with
  | VDict d => ix d k
  | VNone | VBool _ | VInt _ | VFloat _ | VCplx _ _ => Err TypeError
  | VStr _ | VList _ => Err TypeError
  | VArr _ _ | VArr2 _ _ => Err IndexError
  end.

(* ------------------------------------------------------------------ *)
(** ** 2412 *)

(** dataset_2412.py:53-72, one element.  The steps stop at the first exception,
    so computing the remaining ones is harmless. *)
Definition elem2412 (e : pyval) : list item :=
  txt "%10i%10i%10i%10i%10i%10i\n"
    (map (vix e) ["element_nums"; "fe_descriptor"; "phys_table"; "mat_table"; "color"; "num_nodes"]%string)
  :: match vix e "fe_descriptor" with
     | Ok v => if py_eqZ v 11
               then [txt "%10i%10i%10i\n" (map (vix e) ["beam_orientation"; "beam_foreend_cross"; "beam_aftend_cross"]%string)]
               else []
     | Err ex => [WTxt (Err ex)]
     end
  ++ match (do v <- vix e "nodes_nums" ;; to_seq v) with
     | Ok ns => map (fun n => txt "%10i" [Ok n]) ns
     | Err ex => [WTxt (Err ex)]
     end
  ++ [txt "\n" []].

(** dataset_2412.py:47-75 [_write2412]: only integer keys are written. *)
Definition write2412 (d : dict) : wplan :=
  {| wp_dict := d;
     wp_items :=
       hdr_lines 2412
       :: flat_map (fun kv => match fst kv with
                              | KS _ => []
                              | KI _ => match to_seq (snd kv) with
                                        | Ok es => flat_map elem2412 es
                                        | Err e => [WTxt (Err e)]
                                        end
                              end) d
       ++ [end_line];
     wp_wrap := wrap_plain "2412" |}.

(** dataset_2412.py:84 [rods_dict] *)
Definition is_rod (z : Z) : bool := existsb (Z.eqb z) [11; 21; 22; 23; 24].
(** [int(line[i])] for a list of tokens. *)
Definition tok_int (l : list str) (i : nat) : result Z := do t <- ln l i ;; py_int t.

(** dataset_2412.py:93-115: one element starting at the head of [lines]; returns
    the element, its descriptor and the remaining lines. *)
Definition read_elem2412 (line : list str) (rest : list (list str)) : result (dict * Z * list (list str)) :=
  do en <- tok_int line 0 ;;
  do fd <- tok_int line 1 ;;
  do pt <- tok_int line 2 ;;
  do mt <- tok_int line 3 ;;
  do co <- tok_int line 4 ;;
  do nn <- tok_int line 5 ;;
  let base := [(KS "element_nums", VInt en); (KS "fe_descriptor", VInt fd); (KS "phys_table", VInt pt);
               (KS "mat_table", VInt mt); (KS "color", VInt co); (KS "num_nodes", VInt nn)] in
  if is_rod fd then
    match rest with
    | l1 :: rest1 =>
        do bo <- tok_int l1 0 ;;
        do bf <- tok_int l1 1 ;;
        do ba <- tok_int l1 2 ;;
        match rest1 with
        | l2 :: rest2 =>
            do ns <- parse_ints l2 ;;
            Ok (base ++ [(KS "beam_orientation", VInt bo); (KS "beam_foreend_cross", VInt bf);
                         (KS "beam_aftend_cross", VInt ba); (KS "nodes_nums", VList (map VInt ns))],
                fd, rest2)
        | [] => Err IndexError
        end
    | [] => Err IndexError
    end
  else
    match rest with
    | l1 :: rest1 =>
        do ns <- parse_ints l1 ;;
        Ok (base ++ [(KS "nodes_nums", VList (map VInt ns))], fd, rest1)
    | [] => Err IndexError
    end.

(** dataset_2412.py:116-119: [dset[desc].append(elem)], creating the list. *)
Definition add_elem (d : dict) (desc : Z) (e : dict) : dict :=
  match dget d (KI desc) with
  | Some (VList l) => dput d (KI desc) (VList (l ++ [VDict e]))
  | _ => dput d (KI desc) (VList [VDict e])
  end.

(** dataset_2412.py:91-119: the loop; every iteration consumes at least two
    lines, so the number of lines suffices as fuel. *)
Fixpoint loop2412 (fuel : nat) (lines : list (list str)) (d : dict) : result dict :=
  match lines with
  | [] => Ok d
  | line :: rest =>
      match fuel with
      | O => Err OutOfFuel
      | S f => do '(e, desc, rest') <- read_elem2412 line rest ;; loop2412 f rest' (add_elem d desc e)
      end
  end.

(** dataset_2412.py:120-131: legacy entries 'triangle' and 'quad'. *)
Definition column (es : list pyval) (k : string) : result pyval :=
  do vs <- rmap (fun e => vix e k) es ;; Ok (VList vs).
Definition legacy (d : dict) (num : Z) (name : string) : result dict :=
  match dget d (KI num) with
  | None => Ok d
  | Some v =>
      do es <- to_seq v ;;
      do cols <- rseq (map (fun k => do c <- column es k ;; Ok (KS k, c))
        ["element_nums"; "fe_descriptor"; "phys_table"; "mat_table"; "color"; "num_nodes"; "nodes_nums"]%string) ;;
      Ok (dput d (KS name) (VDict cols))
  end.

(** dataset_2412.py:78-136 [_extract2412] *)
Definition extract2412 (block : str) : result dict :=
  try_any
    (let lines := skipn 2 (map split (splitlines_str false block)) in
     do d <- loop2412 (length lines) lines [(KS "type", VInt 2412)] ;;
     do d <- legacy d 41 "triangle" ;;
     legacy d 44 "quad")
    (read_error "2412").

(* ------------------------------------------------------------------ *)
(** ** 2429 *)

Definition set_keys : list string :=
  ["active_constraint_set_no_for_group"; "active_restraint_set_no_for_group"; "active_load_set_no_for_group";
   "active_dof_set_no_for_group"; "active_temperature_set_no_for_group"; "active_contact_set_no_for_group"]%string.
Definition group_defaults : dict := map (fun k => (KS k, VInt 0)) set_keys.
Definition len_arg (r : result pyval) : result pyval :=
  do v <- r ;; do n <- py_len v ;; Ok (VInt (Z.of_nat n)).

(** dataset_2429.py:105-148 [_write2429].  The keys are looked up in the data set
    itself.  [i * 4] in the last line is the index of the source. *)
Definition write2429 (d : dict) : wplan :=
  let d1 := opt_fields d group_defaults in
  let code i := at_ (ix d1 "entity_type_code") (Z.of_nat i) in
  let tag i := at_ (ix d1 "entity_tag") (Z.of_nat i) in
  let n := match (do v <- ix d1 "entity_type_code" ;; py_len v) with Ok n => n | Err _ => 0%nat end in
  {| wp_dict := d1;
     wp_items :=
       txt "%6i\n%6i\n" [I (-1); I 2429]
       :: txt "%10i%10i%10i%10i%10i%10i%10i%10i\n"
            (ix d1 "group_number" :: map (ix d1) set_keys ++ [len_arg (ix d1 "entity_type_code")])
       :: txt "%-40s\n" [ix d1 "group_name"]
       :: map (fun i => txt "%10i%10i%10i%10i%10i%10i%10i%10i\n"
                [code (i * 4)%nat; tag (i * 4)%nat; code (i * 4 + 1)%nat; tag (i * 4 + 1)%nat;
                 code (i * 4 + 2)%nat; tag (i * 4 + 2)%nat; code (i * 4 + 3)%nat; tag (i * 4 + 3)%nat])
            (seq 0 (n / 4))
       ++ map (fun i => txt "%10i%10i" [code (i * 4)%nat; tag (i * 4)%nat]) (seq 0 (n mod 4))
       ++ (if Nat.eqb (n mod 4) 0 then [] else [txt "\n" []])
       ++ [end_line];
     wp_wrap := wrap_plain "2429" |}.

Definition group_header (line : str) : result dict :=
  parse_header_line line 8 [10;10;10;10;10;10;10;10]%nat [2;2;2;2;2;2;2;2]
    ("group_number" :: set_keys ++ ["number_of_entities_in_group"])%string.
Definition group_name_rec (line : str) : result dict :=
  parse_header_line line 1 [40]%nat [1] ["group_name"]%string.
(** [math.ceil(n / k)] *)
Definition ceil_div (n k : Z) : Z := - ((- n) / k).
(** [np.array(l, dtype=int)]: values must fit int64. *)
Definition int64_ok (z : Z) : bool := (- 2 ^ 63 <=? z) && (z <? 2 ^ 63).
Definition np_int_array (l : list Z) : result (list Z) :=
  if forallb int64_ok l then Ok l else Err OverflowError.
(** [[[int(e) for e in line.split()] for line in lines]], flattened. *)
Definition line_ints (lines : list str) : result (list Z) :=
  do rows <- rmap (fun l => parse_ints (split l)) lines ;; np_int_array (concat rows).
Definition count_of (d : dict) : result Z :=
  do v <- ix d "number_of_entities_in_group" ;;
  match v with VInt z => Ok z | _ => Err Unmodelled end.

(** dataset_2429.py:160-176: the loop over groups, [li] = lineIndex. *)
Fixpoint loop2429 (fuel : nat) (lines : list str) (li : Z) (acc : list pyval) : result (list pyval) :=
  if li <? Z.of_nat (length lines) - 2 then
    match fuel with
    | O => Err OutOfFuel
    | S f =>
        do l0 <- py_nth lines li ;;
        do g1 <- group_header l0 ;;
        do l1 <- py_nth lines (li + 1) ;;
        do g2 <- group_name_rec l1 ;;
        let g := dupdate g1 g2 in
        do n <- count_of g ;;
        let last := ceil_div n 4 + li + 2 in
        do vs <- line_ints (py_slice (li + 2) last lines) ;;
        loop2429 f lines last
          (acc ++ [VDict (dput (dput g (KS "entity_type_code") (vints (every 0 2 vs)))
                               (KS "entity_tag") (vints (every 1 2 vs)))])
    end
  else Ok acc.

(** dataset_2429.py:151-180 [_extract2429].  Every line index that is visited
    without an IndexError lies in [-n, n), so 2n+1 iterations decide termination. *)
Definition extract2429_fuel (fuel : nat) (block : str) : result dict :=
  try_any
    (let lines := splitlines_str false block in
     do gs <- loop2429 fuel lines 2 [] ;;
     Ok [(KS "type", VInt 2429); (KS "groups", VList gs)])
    (read_error "2429").
Definition extract2429 (block : str) : result dict :=
  extract2429_fuel (2 * length (splitlines_str false block) + 2) block.

(* ------------------------------------------------------------------ *)
(** ** 2467 *)

(** dataset_2467.py:80-98: the entity lines of a group, [end-i] > 1 or not. *)
Definition ent_keys : list string :=
  ["entity_type_code"; "entity_tag"; "entity_node_leaf_id"; "entity_component_id"]%string.
Definition ent_fields (g : pyval) (i : nat) : list (result pyval) :=
  map (fun k => at_ (vix g k) (Z.of_nat i)) ent_keys.
Definition ent_lines (g : pyval) (n : nat) : list item :=
  map (fun j => let i := (2 * j)%nat in
        if Nat.ltb 1 (n - i)
        then txt "%10i%10i%10i%10i%10i%10i%10i%10i\n" (ent_fields g i ++ ent_fields g (i + 1))
        else txt "%10i%10i%10i%10i\n" (ent_fields g i))
    (seq 0 ((n + 1) / 2)).

(** dataset_2467.py:66-98, one group. *)
Definition group2467 (g : pyval) : list item :=
  txt "%10i%10i%10i%10i%10i%10i%10i%10i\n"
    (vix g "group_number" :: map (vix g) set_keys ++ [len_arg (vix g "entity_type_code")])
  :: txt "%-40s\n" [vix g "group_name"]
  :: match (do v <- vix g "entity_type_code" ;; py_len v) with
     | Ok n => ent_lines g n
     | Err e => [WTxt (Err e)]
     end.

(** dataset_2467.py:55-102 [_write2467] *)
Definition write2467 (d : dict) : wplan :=
  let d1 := opt_fields d group_defaults in
  {| wp_dict := d1;
     wp_items :=
       txt "%6i\n%6i\n" [I (-1); I 2467]
       :: match (do v <- ix d1 "groups" ;; to_seq v) with
          | Ok gs => flat_map group2467 gs ++ [end_line]
          | Err e => [WTxt (Err e)]
          end;
     wp_wrap := wrap_plain "2467" |}.

(** dataset_2467.py:123-148: the loop over groups. *)
Fixpoint loop2467 (fuel : nat) (lines : list str) (li : Z) (acc : list pyval) : result (list pyval) :=
  if li <? Z.of_nat (length lines) then
    match fuel with
    | O => Err OutOfFuel
    | S f =>
        do l0 <- py_nth lines li ;;
        do g1 <- group_header l0 ;;
        do l1 <- py_nth lines (li + 1) ;;
        do g2 <- group_name_rec l1 ;;
        let g := dupdate g1 g2 in
        do n <- count_of g ;;
        let last := ceil_div n 2 + li + 2 in
        do vs <- line_ints (py_slice (li + 2) last lines) ;;
        loop2467 f lines last
          (acc ++ [VDict (dupdate g [(KS "entity_type_code", vints (every 0 4 vs));
                                     (KS "entity_tag", vints (every 1 4 vs));
                                     (KS "entity_node_leaf_id", vints (every 2 4 vs));
                                     (KS "entity_component_id", vints (every 3 4 vs))])])
    end
  else Ok acc.

(** dataset_2467.py:150: the additional, always empty, lists. *)
Definition empties2467 : dict :=
  map (fun k => (KS k, VList []))
    ("group_ids" :: set_keys ++ ["num_of_entities_in_group"; "group_name"; "entity_type_code"; "entity_tag";
      "entity_node_leaf_id"; "entity_component_id"])%string.

(** dataset_2467.py:104-151 [_extract2467]; no exception wrapper.  The printing
    to standard output is not modelled. *)
Definition extract2467_fuel (fuel : nat) (block : str) : result dict :=
  let lines := skipn 2 (splitlines_str true block) in
  do gs <- loop2467 fuel lines 0 [] ;;
  Ok (dupdate [(KS "type", VInt 2467); (KS "groups", VList gs)] empties2467).
Definition extract2467 (block : str) : result dict :=
  extract2467_fuel (2 * length (splitlines_str true block) + 2) block.
