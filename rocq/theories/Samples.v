(** Sample files of the repository (data/) and expectations of its tests
    (tests/), checked by computation.  These are tests of the model, no claim
    rests on them. *)
From Coq Require Import String List NArith ZArith Bool.
Import ListNotations.
From Verif Require Import PyBase PyNum PyVal Utf8 Tools DsNodes DsHeaders DsGroups Ds55 Ds58 Ds2414 Uff Prepare Witness.
Open Scope string_scope.
Open Scope list_scope.

(** The fields [ks] of set [n]. *)
Definition fields_of (file : bytes) (n : Z) (ks : list key) : option (list (option pyval)) :=
  match uff_new (Some file) with
  | Ok u => match read_sets (Some file) u (SelOne n) false with Ok (_, One d) => Some (map (dget d) ks) | _ => None end
  | Err _ => None
  end.
Definition types_of (file : bytes) : option (list Z) := match uff_new (Some file) with Ok u => Some (set_types u) | Err _ => None end.
Definition num (s : string) : option pyval := Some (VFloat (fl s)).
Definition txt (s : string) : option pyval := Some (VStr (lit s)).
Definition int (z : Z) : option pyval := Some (VInt z).

(** data/1858.uff *)
Definition f_1858 : bytes :=
  [32; 32; 32; 32; 45; 49; 10; 32; 32; 49; 56; 53; 56; 10; 32; 32; 32; 32; 32; 32; 32; 32; 32; 32; 32; 48; 32; 32; 32; 32; 32; 32; 32; 32; 32; 32; 32;
   48; 32; 32; 32; 32; 32; 32; 32; 32; 32; 32; 32; 49; 32; 32; 32; 32; 32; 32; 32; 32; 32; 32; 32; 48; 32; 32; 32; 32; 32; 32; 32; 32; 32; 32; 32; 48;
   32; 32; 32; 32; 32; 32; 32; 32; 32; 32; 32; 48; 10; 32; 32; 32; 32; 32; 48; 32; 32; 32; 32; 32; 52; 32; 32; 32; 32; 32; 48; 32; 32; 32; 32; 32; 48;
   32; 32; 32; 32; 32; 48; 32; 32; 32; 32; 32; 48; 32; 32; 32; 32; 32; 48; 32; 32; 32; 32; 32; 48; 32; 32; 32; 32; 32; 48; 32; 32; 32; 32; 32; 48; 32;
   32; 32; 32; 32; 48; 32; 32; 32; 32; 32; 48; 10; 32; 32; 48; 46; 48; 48; 48; 48; 48; 48; 48; 69; 43; 48; 48; 32; 32; 48; 46; 48; 48; 48; 48; 48; 48;
   48; 69; 43; 48; 48; 32; 32; 48; 46; 48; 48; 48; 48; 48; 48; 48; 69; 43; 48; 48; 32; 32; 48; 46; 48; 48; 48; 48; 48; 48; 48; 69; 43; 48; 48; 32; 32;
   48; 46; 48; 48; 48; 48; 48; 48; 48; 69; 43; 48; 48; 10; 32; 32; 48; 46; 48; 48; 48; 48; 48; 48; 48; 69; 43; 48; 48; 32; 32; 48; 46; 48; 48; 48; 48;
   48; 48; 48; 69; 43; 48; 48; 32; 32; 48; 46; 48; 48; 48; 48; 48; 48; 48; 69; 43; 48; 48; 32; 32; 48; 46; 48; 48; 48; 48; 48; 48; 48; 69; 43; 48; 48;
   32; 32; 53; 46; 50; 55; 48; 54; 48; 48; 55; 69; 45; 48; 50; 10; 32; 32; 48; 46; 48; 48; 48; 48; 48; 48; 48; 69; 43; 48; 48; 32; 32; 48; 46; 48; 48;
   48; 48; 48; 48; 48; 69; 43; 48; 48; 32; 32; 48; 46; 48; 48; 48; 48; 48; 48; 48; 69; 43; 48; 48; 32; 32; 48; 46; 48; 48; 48; 48; 48; 48; 48; 69; 43;
   48; 48; 32; 32; 48; 46; 48; 48; 48; 48; 48; 48; 48; 69; 43; 48; 48; 10; 88; 43; 32; 32; 32; 32; 88; 43; 10; 78; 79; 78; 69; 10; 32; 32; 32; 32; 45;
   49; 10; 32; 32; 32; 32; 45; 49; 10; 32; 32; 49; 56; 53; 56; 10; 32; 32; 32; 32; 32; 32; 32; 32; 32; 32; 32; 49; 32; 32; 32; 32; 32; 32; 32; 32; 32;
   32; 32; 51; 32; 32; 32; 32; 32; 32; 32; 32; 32; 32; 32; 49; 32; 32; 32; 32; 32; 32; 32; 32; 32; 32; 32; 48; 32; 32; 32; 32; 32; 32; 32; 32; 32; 32;
   32; 48; 32; 32; 32; 32; 32; 32; 32; 32; 32; 32; 32; 48; 10; 32; 32; 32; 32; 32; 48; 32; 32; 32; 32; 32; 48; 32; 32; 32; 32; 32; 48; 32; 32; 32; 32;
   32; 48; 32; 32; 32; 32; 32; 48; 32; 32; 32; 32; 32; 48; 32; 32; 32; 32; 32; 48; 32; 32; 32; 32; 32; 48; 32; 32; 32; 32; 32; 48; 32; 32; 32; 32; 32;
   49; 32; 32; 32; 32; 32; 48; 32; 32; 32; 32; 32; 48; 10; 32; 32; 48; 46; 48; 48; 48; 48; 48; 48; 48; 69; 43; 48; 48; 32; 32; 48; 46; 48; 48; 48; 48;
   48; 48; 48; 69; 43; 48; 48; 32; 32; 48; 46; 48; 48; 48; 48; 48; 48; 48; 69; 43; 48; 48; 32; 32; 48; 46; 48; 48; 48; 48; 48; 48; 48; 69; 43; 48; 48;
   32; 32; 48; 46; 48; 48; 48; 48; 48; 48; 48; 69; 43; 48; 48; 10; 32; 32; 48; 46; 48; 48; 48; 48; 48; 48; 48; 69; 43; 48; 48; 32; 32; 48; 46; 48; 48;
   48; 48; 48; 48; 48; 69; 43; 48; 48; 32; 32; 48; 46; 48; 48; 48; 48; 48; 48; 48; 69; 43; 48; 48; 32; 32; 48; 46; 48; 48; 48; 48; 48; 48; 48; 69; 43;
   48; 48; 32; 32; 48; 46; 48; 48; 48; 48; 48; 48; 48; 69; 43; 48; 48; 10; 32; 32; 48; 46; 48; 48; 48; 48; 48; 48; 48; 69; 43; 48; 48; 32; 32; 48; 46;
   48; 48; 48; 48; 48; 48; 48; 69; 43; 48; 48; 32; 32; 48; 46; 48; 48; 48; 48; 48; 48; 48; 69; 43; 48; 48; 32; 32; 48; 46; 48; 48; 48; 48; 48; 48; 48;
   69; 43; 48; 48; 32; 32; 48; 46; 48; 48; 48; 48; 48; 48; 48; 69; 43; 48; 48; 10; 78; 79; 78; 69; 32; 32; 78; 79; 78; 69; 10; 78; 79; 78; 69; 10; 32;
   32; 32; 32; 45; 49]%N.
(** tests/test_1858.py:51-66 *)
Example sample_1858 : types_of f_1858 = Some [1858; 1858]%Z /\
  fields_of f_1858 0 (map KS ["measurement_run"; "window_type"; "exponential_window_damping_factor"; "response_direction"; "reference_direction"]) =
    Some [int 1; int 4; num "0.052706007"; txt "X+"; txt "X+"] /\
  fields_of f_1858 1 (map KS ["measurement_run"; "octave_format"; "response_direction"; "reference_direction"]) = Some [int 1; int 3; txt "NONE"; txt "NONE"].
Proof. vm_compute. repeat split. Qed.

(** data/non_ascii_header.uff *)
Definition f_text : bytes :=
  [32; 32; 32; 32; 45; 49; 10; 32; 32; 32; 32; 53; 56; 10; 114; 101; 102; 54; 95; 50; 51; 95; 77; 97; 114; 32; 32; 32; 32; 32; 32; 32; 32; 32; 32; 32;
   32; 32; 32; 32; 32; 32; 32; 32; 32; 32; 32; 32; 32; 32; 32; 32; 32; 32; 32; 32; 32; 32; 32; 32; 32; 32; 32; 32; 32; 32; 32; 32; 32; 32; 32; 32; 32;
   32; 32; 32; 32; 32; 32; 32; 32; 32; 32; 32; 32; 32; 32; 32; 32; 32; 32; 32; 32; 32; 10; 78; 79; 78; 69; 32; 32; 32; 32; 32; 32; 32; 32; 32; 32; 32;
   32; 32; 32; 32; 32; 32; 32; 32; 32; 32; 32; 32; 32; 32; 32; 32; 32; 32; 32; 32; 32; 32; 32; 32; 32; 32; 32; 32; 32; 32; 32; 32; 32; 32; 32; 32; 32;
   32; 32; 32; 32; 32; 32; 32; 32; 32; 32; 32; 32; 32; 32; 32; 32; 32; 32; 32; 32; 32; 32; 32; 32; 32; 32; 32; 32; 10; 50; 51; 45; 77; 97; 114; 45; 49;
   55; 32; 49; 57; 58; 48; 50; 58; 50; 51; 32; 32; 32; 32; 32; 32; 32; 32; 32; 32; 32; 32; 32; 32; 32; 32; 32; 32; 32; 32; 32; 32; 32; 32; 32; 32; 32;
   32; 32; 32; 32; 32; 32; 32; 32; 32; 32; 32; 32; 32; 32; 32; 32; 32; 32; 32; 32; 32; 32; 32; 32; 32; 32; 32; 32; 32; 32; 32; 32; 32; 32; 32; 10; 82;
   101; 99; 111; 114; 100; 32; 49; 32; 111; 102; 32; 68; 97; 116; 97; 115; 101; 116; 32; 110; 111; 32; 53; 56; 32; 32; 32; 32; 32; 32; 32; 32; 32; 32;
   32; 32; 32; 32; 32; 32; 32; 32; 32; 32; 32; 32; 32; 32; 32; 32; 32; 32; 32; 32; 32; 32; 32; 32; 32; 32; 32; 32; 32; 32; 32; 32; 32; 32; 32; 32; 32;
   32; 32; 32; 32; 32; 32; 32; 32; 10; 72; 49; 32; 58; 32; 35; 32; 32; 50; 32; 47; 32; 35; 32; 32; 49; 32; 32; 32; 32; 32; 32; 32; 32; 32; 32; 32; 32;
   32; 32; 32; 32; 32; 32; 32; 32; 32; 32; 32; 32; 32; 32; 32; 32; 32; 32; 32; 32; 32; 32; 32; 32; 32; 32; 32; 32; 32; 32; 32; 32; 32; 32; 32; 32; 32;
   32; 32; 32; 32; 32; 32; 32; 32; 32; 32; 32; 32; 32; 32; 32; 10; 32; 32; 32; 32; 52; 32; 32; 32; 32; 32; 32; 32; 32; 32; 48; 32; 32; 32; 32; 48; 32;
   32; 32; 32; 32; 32; 32; 32; 32; 48; 32; 78; 79; 78; 69; 32; 32; 32; 32; 32; 32; 32; 32; 32; 32; 32; 32; 32; 32; 32; 48; 32; 32; 32; 48; 32; 78; 79;
   78; 69; 32; 32; 32; 32; 32; 32; 32; 32; 32; 32; 32; 32; 32; 32; 32; 48; 32; 32; 32; 48; 10; 32; 32; 32; 32; 32; 32; 32; 32; 32; 53; 32; 32; 32; 32;
   32; 32; 32; 32; 32; 54; 32; 32; 32; 32; 32; 32; 32; 32; 32; 49; 32; 48; 46; 48; 48; 48; 48; 48; 101; 43; 48; 48; 32; 32; 49; 46; 57; 53; 51; 49; 51;
   101; 45; 48; 49; 32; 32; 48; 46; 48; 48; 48; 48; 48; 101; 43; 48; 48; 32; 10; 32; 32; 32; 32; 32; 32; 32; 32; 49; 56; 32; 32; 32; 32; 48; 32; 32; 32;
   32; 48; 32; 32; 32; 32; 48; 32; 78; 79; 78; 69; 32; 32; 32; 32; 32; 32; 32; 32; 32; 32; 32; 32; 32; 32; 32; 32; 32; 72; 122; 32; 32; 32; 32; 32; 32;
   32; 32; 32; 32; 32; 32; 32; 32; 32; 32; 32; 32; 10; 32; 32; 32; 32; 32; 32; 32; 32; 32; 49; 32; 32; 32; 32; 48; 32; 32; 32; 32; 48; 32; 32; 32; 32;
   48; 32; 70; 114; 101; 113; 117; 101; 110; 99; 121; 32; 70; 117; 110; 99; 116; 105; 111; 110; 32; 32; 32; 40; 49; 47; 78; 41; 42; 40; 109; 47; 115;
   178; 41; 32; 32; 32; 32; 32; 32; 32; 32; 10; 32; 32; 32; 32; 32; 32; 32; 32; 32; 48; 32; 32; 32; 32; 48; 32; 32; 32; 32; 48; 32; 32; 32; 32; 48; 32;
   78; 79; 78; 69; 32; 32; 32; 32; 32; 32; 32; 32; 32; 32; 32; 32; 32; 32; 32; 32; 32; 78; 79; 78; 69; 32; 32; 32; 32; 32; 32; 32; 32; 32; 32; 32; 32;
   32; 32; 32; 32; 10; 32; 32; 32; 32; 32; 32; 32; 32; 32; 48; 32; 32; 32; 32; 48; 32; 32; 32; 32; 48; 32; 32; 32; 32; 48; 32; 78; 79; 78; 69; 32; 32;
   32; 32; 32; 32; 32; 32; 32; 32; 32; 32; 32; 32; 32; 32; 32; 78; 79; 78; 69; 32; 32; 32; 32; 32; 32; 32; 32; 32; 32; 32; 32; 32; 32; 32; 32; 10; 32;
   52; 46; 48; 55; 57; 57; 52; 101; 45; 48; 49; 32; 32; 48; 46; 48; 48; 48; 48; 48; 101; 43; 48; 48; 32; 45; 53; 46; 57; 57; 57; 50; 52; 101; 45; 48; 50;
   32; 45; 53; 46; 53; 51; 50; 54; 48; 101; 45; 48; 50; 32; 32; 50; 46; 53; 56; 55; 53; 48; 101; 45; 48; 50; 32; 45; 50; 46; 51; 48; 48; 56; 53; 101; 45;
   48; 52; 32; 10; 45; 50; 46; 57; 57; 48; 48; 51; 101; 45; 48; 49; 32; 32; 51; 46; 49; 55; 50; 49; 51; 101; 45; 48; 49; 32; 45; 49; 46; 56; 48; 50; 53;
   48; 101; 43; 48; 48; 32; 32; 49; 46; 53; 53; 51; 48; 50; 101; 43; 48; 48; 32; 32; 51; 46; 55; 53; 48; 51; 55; 101; 43; 48; 48; 32; 32; 50; 46; 57; 51;
   51; 54; 51; 101; 43; 48; 48; 32; 10; 32; 32; 32; 32; 45; 49; 10]%N.
(** tests/test_all.py:8-21 *)
Example sample_text : types_of f_text = Some [58]%Z /\ fields_of f_text 0 (map KS ["id1"; "rsp_dir"]) = Some [txt "ref6_23_Mar"; int 0] /\
  match fields_of f_text 0 (map KS ["num_pts"; "x"; "data"]) with
  | Some [Some (VInt n); Some (VArr _ xs); Some (VArr _ ys)] => length ys = Z.to_nat n /\ length xs = Z.to_nat n /\
      hd_error ys = Some (VCplx (fl "0.407994") (fl "0")) /\ last ys VNone = VCplx (fl "3.75037") (fl "2.93363") /\
      xs = map (fun k => match nth 1 xs VNone with VFloat dt => VFloat (f_mul (float_of_Z (Z.of_nat k)) dt) | _ => VNone end) (seq 0 (Z.to_nat n))
  | _ => False
  end.
Proof. vm_compute. repeat split. Qed.

(** data/mesh_test_uff2412_mixed.uff *)
Definition f_mixed : bytes :=
  [32; 32; 32; 32; 45; 49; 10; 32; 32; 32; 32; 49; 56; 10; 32; 32; 32; 32; 32; 32; 32; 32; 32; 49; 32; 32; 32; 32; 32; 32; 32; 32; 32; 48; 32; 32; 32;
   32; 32; 32; 32; 32; 32; 48; 32; 32; 32; 32; 32; 32; 32; 32; 32; 49; 32; 32; 32; 32; 32; 32; 32; 32; 32; 49; 10; 67; 83; 49; 10; 32; 32; 48; 46; 48;
   48; 48; 48; 48; 69; 43; 48; 48; 32; 32; 48; 46; 48; 48; 48; 48; 48; 69; 43; 48; 48; 32; 32; 48; 46; 48; 48; 48; 48; 48; 69; 43; 48; 48; 32; 32; 49;
   46; 48; 48; 48; 48; 48; 69; 43; 48; 48; 32; 32; 48; 46; 48; 48; 48; 48; 48; 69; 43; 48; 48; 32; 32; 48; 46; 48; 48; 48; 48; 48; 69; 43; 48; 48; 10;
   32; 32; 48; 46; 48; 48; 48; 48; 48; 69; 43; 48; 48; 32; 32; 48; 46; 48; 48; 48; 48; 48; 69; 43; 48; 48; 32; 32; 49; 46; 48; 48; 48; 48; 48; 69; 43;
   48; 48; 10; 32; 32; 32; 32; 45; 49; 10; 32; 32; 32; 32; 45; 49; 10; 32; 32; 32; 32; 49; 53; 10; 32; 32; 32; 32; 32; 32; 32; 32; 32; 51; 32; 32; 32;
   32; 32; 32; 32; 32; 32; 49; 32; 32; 32; 32; 32; 32; 32; 32; 32; 48; 32; 32; 32; 32; 32; 32; 32; 32; 32; 49; 32; 32; 32; 32; 32; 32; 32; 32; 32; 32;
   32; 32; 49; 32; 32; 32; 32; 32; 32; 32; 32; 32; 32; 32; 32; 48; 32; 32; 32; 32; 32; 32; 32; 32; 32; 32; 32; 32; 48; 10; 32; 32; 32; 32; 32; 32; 32;
   32; 32; 52; 32; 32; 32; 32; 32; 32; 32; 32; 32; 49; 32; 32; 32; 32; 32; 32; 32; 32; 32; 48; 32; 32; 32; 32; 32; 32; 32; 32; 32; 49; 32; 32; 32; 32;
   32; 32; 32; 32; 32; 32; 32; 32; 49; 32; 32; 32; 32; 32; 32; 32; 32; 32; 32; 32; 32; 49; 32; 32; 32; 32; 32; 32; 32; 32; 32; 32; 32; 32; 48; 10; 32;
   32; 32; 32; 32; 32; 32; 32; 32; 53; 32; 32; 32; 32; 32; 32; 32; 32; 32; 49; 32; 32; 32; 32; 32; 32; 32; 32; 32; 48; 32; 32; 32; 32; 32; 32; 32; 32;
   32; 49; 32; 32; 32; 32; 32; 32; 32; 32; 32; 32; 32; 32; 48; 32; 32; 32; 32; 32; 32; 32; 32; 32; 32; 32; 32; 49; 32; 32; 32; 32; 32; 32; 32; 32; 32;
   32; 32; 32; 48; 10; 32; 32; 32; 32; 32; 32; 32; 32; 32; 54; 32; 32; 32; 32; 32; 32; 32; 32; 32; 49; 32; 32; 32; 32; 32; 32; 32; 32; 32; 48; 32; 32;
   32; 32; 32; 32; 32; 32; 32; 49; 32; 32; 32; 32; 32; 32; 32; 32; 32; 32; 32; 32; 48; 32; 32; 32; 32; 32; 32; 32; 32; 32; 32; 32; 32; 48; 32; 32; 32;
   32; 32; 32; 32; 32; 32; 32; 32; 32; 48; 10; 32; 32; 32; 32; 32; 32; 32; 32; 49; 49; 32; 32; 32; 32; 32; 32; 32; 32; 32; 49; 32; 32; 32; 32; 32; 32;
   32; 32; 32; 48; 32; 32; 32; 32; 32; 32; 32; 32; 32; 49; 32; 32; 32; 32; 32; 32; 32; 32; 32; 32; 32; 32; 49; 32; 32; 32; 32; 32; 32; 32; 32; 32; 32;
   32; 32; 49; 32; 32; 32; 32; 32; 32; 32; 32; 32; 32; 32; 32; 49; 10; 32; 32; 32; 32; 45; 49; 10; 32; 32; 32; 32; 45; 49; 10; 32; 32; 50; 52; 49; 50;
   10; 32; 32; 32; 32; 32; 32; 32; 32; 32; 49; 32; 32; 32; 32; 32; 32; 32; 32; 52; 52; 32; 32; 32; 32; 32; 32; 32; 32; 32; 48; 32; 32; 32; 32; 32; 32;
   32; 32; 32; 48; 32; 32; 32; 32; 32; 32; 32; 32; 32; 49; 32; 32; 32; 32; 32; 32; 32; 32; 32; 52; 10; 32; 32; 32; 32; 32; 32; 32; 32; 32; 51; 32; 32;
   32; 32; 32; 32; 32; 32; 32; 52; 32; 32; 32; 32; 32; 32; 32; 32; 32; 53; 32; 32; 32; 32; 32; 32; 32; 32; 32; 54; 10; 32; 32; 32; 32; 32; 32; 32; 32;
   32; 50; 32; 32; 32; 32; 32; 32; 32; 32; 52; 49; 32; 32; 32; 32; 32; 32; 32; 32; 32; 48; 32; 32; 32; 32; 32; 32; 32; 32; 32; 48; 32; 32; 32; 32; 32;
   32; 32; 32; 32; 49; 32; 32; 32; 32; 32; 32; 32; 32; 32; 51; 10; 32; 32; 32; 32; 32; 32; 32; 32; 32; 51; 32; 32; 32; 32; 32; 32; 32; 32; 32; 52; 32;
   32; 32; 32; 32; 32; 32; 32; 49; 49; 10; 32; 32; 32; 32; 32; 32; 32; 32; 32; 51; 32; 32; 32; 32; 32; 32; 32; 32; 52; 49; 32; 32; 32; 32; 32; 32; 32;
   32; 32; 48; 32; 32; 32; 32; 32; 32; 32; 32; 32; 48; 32; 32; 32; 32; 32; 32; 32; 32; 32; 49; 32; 32; 32; 32; 32; 32; 32; 32; 32; 51; 10; 32; 32; 32;
   32; 32; 32; 32; 32; 32; 52; 32; 32; 32; 32; 32; 32; 32; 32; 32; 53; 32; 32; 32; 32; 32; 32; 32; 32; 49; 49; 10; 32; 32; 32; 32; 32; 32; 32; 32; 32;
   52; 32; 32; 32; 32; 32; 32; 32; 32; 52; 49; 32; 32; 32; 32; 32; 32; 32; 32; 32; 48; 32; 32; 32; 32; 32; 32; 32; 32; 32; 48; 32; 32; 32; 32; 32; 32;
   32; 32; 32; 49; 32; 32; 32; 32; 32; 32; 32; 32; 32; 51; 10; 32; 32; 32; 32; 32; 32; 32; 32; 32; 53; 32; 32; 32; 32; 32; 32; 32; 32; 32; 54; 32; 32;
   32; 32; 32; 32; 32; 32; 49; 49; 10; 32; 32; 32; 32; 32; 32; 32; 32; 32; 53; 32; 32; 32; 32; 32; 32; 32; 32; 52; 49; 32; 32; 32; 32; 32; 32; 32; 32;
   32; 48; 32; 32; 32; 32; 32; 32; 32; 32; 32; 48; 32; 32; 32; 32; 32; 32; 32; 32; 32; 49; 32; 32; 32; 32; 32; 32; 32; 32; 32; 51; 10; 32; 32; 32; 32;
   32; 32; 32; 32; 32; 51; 32; 32; 32; 32; 32; 32; 32; 32; 32; 54; 32; 32; 32; 32; 32; 32; 32; 32; 49; 49; 10; 32; 32; 32; 32; 45; 49; 10]%N.
(** tests/test_2412.py:32-40 *)
Definition last_row (v : option pyval) : option (list pyval) :=
  match v with Some (VDict d) => match dget d (KS "nodes_nums") with Some (VList rows) => match last rows VNone with VList l => Some l | _ => None end | _ => None end | _ => None end.
Example sample_mixed : types_of f_mixed = Some [18; 15; 2412]%Z /\
  option_map (map last_row) (fields_of f_mixed 2 (map KS ["triangle"; "quad"])) = Some [Some (map VInt [3; 6; 11]%Z); Some (map VInt [3; 4; 5; 6]%Z)].
Proof. vm_compute. repeat split. Qed.

(** data/time-history-not-all-columns-filled.uff *)
Definition f_hist : bytes :=
  [32; 32; 32; 32; 45; 49; 32; 32; 32; 32; 32; 32; 32; 32; 32; 32; 32; 32; 32; 32; 32; 32; 32; 32; 32; 32; 32; 32; 32; 32; 32; 32; 32; 32; 32; 32; 32;
   32; 32; 32; 32; 32; 32; 32; 32; 32; 32; 32; 32; 32; 32; 32; 32; 32; 32; 32; 32; 32; 32; 32; 32; 32; 32; 32; 32; 32; 32; 32; 32; 32; 32; 32; 32; 32;
   32; 32; 32; 32; 32; 32; 10; 32; 32; 32; 32; 53; 56; 32; 32; 32; 32; 32; 32; 32; 32; 32; 32; 32; 32; 32; 32; 32; 32; 32; 32; 32; 32; 32; 32; 32; 32;
   32; 32; 32; 32; 32; 32; 32; 32; 32; 32; 32; 32; 32; 32; 32; 32; 32; 32; 32; 32; 32; 32; 32; 32; 32; 32; 32; 32; 32; 32; 32; 32; 32; 32; 32; 32; 32;
   32; 32; 32; 32; 32; 32; 32; 32; 32; 32; 32; 32; 32; 10; 49; 120; 32; 58; 32; 109; 47; 115; 194; 178; 32; 32; 32; 32; 32; 32; 32; 32; 32; 32; 32; 32;
   32; 32; 32; 32; 32; 32; 32; 32; 32; 32; 32; 32; 32; 32; 32; 32; 32; 32; 32; 32; 32; 32; 32; 32; 32; 32; 32; 32; 32; 32; 32; 32; 32; 32; 32; 32; 32;
   32; 32; 32; 32; 32; 32; 32; 32; 32; 32; 32; 32; 32; 32; 32; 32; 32; 32; 32; 32; 32; 32; 10; 85; 70; 70; 53; 56; 32; 102; 105; 108; 101; 32; 99; 114;
   101; 97; 116; 101; 100; 32; 98; 121; 32; 72; 66; 77; 32; 99; 97; 116; 109; 97; 110; 32; 32; 32; 32; 32; 32; 32; 32; 32; 32; 32; 32; 32; 32; 32; 32;
   32; 32; 32; 32; 32; 32; 32; 32; 32; 32; 32; 32; 32; 32; 32; 32; 32; 32; 32; 32; 32; 32; 32; 32; 32; 32; 32; 32; 32; 32; 32; 32; 10; 51; 48; 45; 65;
   112; 114; 45; 50; 48; 32; 49; 57; 58; 49; 50; 58; 53; 50; 32; 32; 32; 32; 32; 32; 32; 32; 32; 32; 32; 32; 32; 32; 32; 32; 32; 32; 32; 32; 32; 32; 32;
   32; 32; 32; 32; 32; 32; 32; 32; 32; 32; 32; 32; 32; 32; 32; 32; 32; 32; 32; 32; 32; 32; 32; 32; 32; 32; 32; 32; 32; 32; 32; 32; 32; 32; 32; 32; 32;
   32; 32; 10; 78; 79; 78; 69; 32; 32; 32; 32; 32; 32; 32; 32; 32; 32; 32; 32; 32; 32; 32; 32; 32; 32; 32; 32; 32; 32; 32; 32; 32; 32; 32; 32; 32; 32;
   32; 32; 32; 32; 32; 32; 32; 32; 32; 32; 32; 32; 32; 32; 32; 32; 32; 32; 32; 32; 32; 32; 32; 32; 32; 32; 32; 32; 32; 32; 32; 32; 32; 32; 32; 32; 32;
   32; 32; 32; 32; 32; 32; 32; 32; 32; 10; 78; 79; 78; 69; 32; 32; 32; 32; 32; 32; 32; 32; 32; 32; 32; 32; 32; 32; 32; 32; 32; 32; 32; 32; 32; 32; 32;
   32; 32; 32; 32; 32; 32; 32; 32; 32; 32; 32; 32; 32; 32; 32; 32; 32; 32; 32; 32; 32; 32; 32; 32; 32; 32; 32; 32; 32; 32; 32; 32; 32; 32; 32; 32; 32;
   32; 32; 32; 32; 32; 32; 32; 32; 32; 32; 32; 32; 32; 32; 32; 32; 10; 32; 32; 32; 32; 49; 32; 32; 32; 32; 32; 32; 32; 32; 32; 48; 32; 32; 32; 32; 48;
   32; 32; 32; 32; 32; 32; 32; 32; 32; 48; 32; 78; 79; 78; 69; 32; 32; 32; 32; 32; 32; 32; 32; 32; 32; 32; 32; 32; 32; 32; 48; 32; 32; 32; 48; 32; 78;
   79; 78; 69; 32; 32; 32; 32; 32; 32; 32; 32; 32; 32; 32; 32; 32; 32; 32; 48; 32; 32; 32; 48; 10; 32; 32; 32; 32; 32; 32; 32; 32; 32; 50; 32; 32; 32;
   32; 32; 32; 32; 32; 49; 51; 32; 32; 32; 32; 32; 32; 32; 32; 32; 49; 32; 48; 46; 48; 48; 48; 48; 48; 69; 43; 48; 48; 48; 32; 53; 46; 48; 48; 48; 48;
   48; 69; 45; 48; 48; 53; 32; 48; 46; 48; 48; 48; 48; 48; 69; 43; 48; 48; 48; 32; 32; 32; 32; 32; 32; 32; 32; 32; 32; 32; 10; 32; 32; 32; 32; 32; 32;
   32; 32; 49; 55; 32; 32; 32; 32; 48; 32; 32; 32; 32; 48; 32; 32; 32; 32; 48; 32; 84; 105; 109; 101; 32; 32; 32; 32; 32; 32; 32; 32; 32; 32; 32; 32; 32;
   32; 32; 32; 32; 115; 32; 32; 32; 32; 32; 32; 32; 32; 32; 32; 32; 32; 32; 32; 32; 32; 32; 32; 32; 32; 32; 32; 32; 32; 32; 32; 32; 32; 32; 32; 32; 32;
   10; 32; 32; 32; 32; 32; 32; 32; 32; 32; 49; 32; 32; 32; 32; 48; 32; 32; 32; 32; 48; 32; 32; 32; 32; 48; 32; 49; 120; 32; 32; 32; 32; 32; 32; 32; 32;
   32; 32; 32; 32; 32; 32; 32; 32; 32; 32; 32; 109; 47; 115; 194; 178; 32; 32; 32; 32; 32; 32; 32; 32; 32; 32; 32; 32; 32; 32; 32; 32; 32; 32; 32; 32;
   32; 32; 32; 32; 32; 32; 32; 32; 32; 10; 32; 32; 32; 32; 32; 32; 32; 32; 32; 48; 32; 32; 32; 32; 48; 32; 32; 32; 32; 48; 32; 32; 32; 32; 48; 32; 78;
   79; 78; 69; 32; 32; 32; 32; 32; 32; 32; 32; 32; 32; 32; 32; 32; 32; 32; 32; 32; 78; 79; 78; 69; 32; 32; 32; 32; 32; 32; 32; 32; 32; 32; 32; 32; 32;
   32; 32; 32; 32; 32; 32; 32; 32; 32; 32; 32; 32; 32; 32; 32; 32; 10; 32; 32; 32; 32; 32; 32; 32; 32; 32; 48; 32; 32; 32; 32; 48; 32; 32; 32; 32; 48;
   32; 32; 32; 32; 48; 32; 78; 79; 78; 69; 32; 32; 32; 32; 32; 32; 32; 32; 32; 32; 32; 32; 32; 32; 32; 32; 32; 78; 79; 78; 69; 32; 32; 32; 32; 32; 32;
   32; 32; 32; 32; 32; 32; 32; 32; 32; 32; 32; 32; 32; 32; 32; 32; 32; 32; 32; 32; 32; 32; 32; 10; 32; 45; 51; 46; 56; 49; 57; 53; 54; 69; 43; 48; 48;
   32; 45; 51; 46; 53; 54; 54; 49; 54; 69; 43; 48; 48; 32; 45; 50; 46; 57; 56; 57; 56; 55; 69; 43; 48; 48; 32; 45; 50; 46; 54; 50; 50; 48; 55; 69; 43;
   48; 48; 32; 45; 51; 46; 50; 50; 56; 55; 57; 69; 43; 48; 48; 32; 45; 51; 46; 54; 51; 55; 49; 50; 69; 43; 48; 48; 10; 32; 45; 51; 46; 57; 48; 50; 49;
   48; 69; 43; 48; 48; 32; 45; 51; 46; 54; 57; 50; 49; 52; 69; 43; 48; 48; 32; 45; 51; 46; 52; 50; 52; 50; 54; 69; 43; 48; 48; 32; 45; 51; 46; 52; 56;
   53; 48; 56; 69; 43; 48; 48; 32; 45; 52; 46; 48; 51; 57; 54; 54; 69; 43; 48; 48; 32; 45; 51; 46; 52; 54; 48; 52; 54; 69; 43; 48; 48; 10; 32; 45; 53;
   46; 56; 52; 48; 57; 54; 69; 43; 48; 48; 32; 32; 32; 32; 32; 32; 32; 32; 32; 32; 32; 32; 32; 32; 32; 32; 32; 32; 32; 32; 32; 32; 32; 32; 32; 32; 32;
   32; 32; 32; 32; 32; 32; 32; 32; 32; 32; 32; 32; 32; 32; 32; 32; 32; 32; 32; 32; 32; 32; 32; 32; 32; 32; 32; 32; 32; 32; 32; 32; 32; 32; 32; 32; 32;
   32; 10; 32; 32; 32; 32; 45; 49; 32; 32; 32; 32; 32; 32; 32; 32; 32; 32; 32; 32; 32; 32; 32; 32; 32; 32; 32; 32; 32; 32; 32; 32; 32; 32; 32; 32; 32;
   32; 32; 32; 32; 32; 32; 32; 32; 32; 32; 32; 32; 32; 32; 32; 32; 32; 32; 32; 32; 32; 32; 32; 32; 32; 32; 32; 32; 32; 32; 32; 32; 32; 32; 32; 32; 32;
   32; 32; 32; 32; 32; 32; 32; 32; 10]%N.
(** Read by tests/test_58.py:11; the values are those in the file. *)
Example sample_hist : types_of f_hist = Some [58]%Z /\ fields_of f_hist 0 (map KS ["num_pts"; "abscissa_inc"; "ordinate_axis_lab"]) = Some [int 13; num "5e-05"; txt "1x"] /\
  match fields_of f_hist 0 [KS "data"] with
  | Some [Some (VArr _ ys)] => length ys = 13%nat /\ firstn 3 ys = map (fun s => VFloat (fl s)) ["-3.81956"; "-3.56616"; "-2.98987"]
  | _ => False
  end.
Proof. vm_compute. repeat split. Qed.

(** data/uff55 sample_test record10.uff *)
Definition f_modes : bytes :=
  [32; 32; 32; 32; 45; 49; 10; 32; 32; 32; 32; 53; 53; 10; 84; 69; 83; 84; 84; 69; 83; 84; 58; 67; 102; 103; 61; 48; 58; 67; 49; 58; 116; 114; 97; 110;
   115; 58; 49; 49; 49; 49; 50; 49; 10; 83; 87; 80; 58; 70; 83; 61; 32; 32; 49; 48; 46; 48; 48; 58; 70; 69; 61; 32; 50; 48; 46; 48; 48; 58; 70; 61; 48;
   46; 49; 49; 49; 49; 58; 78; 111; 110; 101; 58; 78; 111; 110; 101; 58; 78; 79; 78; 69; 58; 77; 10; 80; 79; 77; 65; 58; 80; 70; 61; 50; 46; 53; 53; 101;
   45; 48; 53; 58; 78; 77; 61; 32; 32; 53; 58; 71; 70; 61; 32; 32; 52; 46; 56; 54; 49; 50; 58; 77; 73; 70; 61; 32; 50; 48; 48; 58; 77; 80; 67; 61; 56;
   55; 46; 52; 49; 58; 77; 80; 68; 61; 49; 50; 46; 53; 53; 58; 78; 58; 82; 79; 84; 61; 48; 46; 48; 48; 48; 48; 10; 70; 82; 61; 56; 46; 57; 57; 57; 57;
   58; 100; 61; 48; 46; 49; 49; 49; 49; 58; 78; 80; 61; 50; 54; 48; 50; 48; 49; 43; 89; 58; 77; 71; 61; 32; 53; 53; 46; 49; 49; 49; 49; 49; 49; 49; 49;
   58; 77; 68; 61; 32; 32; 48; 46; 48; 51; 55; 57; 58; 80; 111; 77; 68; 61; 50; 54; 48; 50; 48; 49; 10; 32; 32; 32; 32; 57; 57; 57; 57; 57; 57; 32; 32;
   32; 32; 32; 32; 32; 32; 32; 51; 32; 32; 32; 32; 32; 32; 32; 32; 32; 56; 32; 32; 32; 32; 32; 32; 32; 32; 49; 51; 10; 32; 32; 32; 32; 32; 32; 32; 32;
   32; 49; 32; 32; 32; 32; 32; 32; 32; 32; 32; 51; 32; 32; 32; 32; 32; 32; 32; 32; 32; 50; 32; 32; 32; 32; 32; 32; 32; 32; 32; 56; 32; 32; 32; 32; 32;
   32; 32; 32; 32; 53; 32; 32; 32; 32; 32; 32; 32; 32; 32; 51; 10; 32; 32; 32; 32; 32; 32; 32; 32; 32; 50; 32; 32; 32; 32; 32; 32; 32; 32; 32; 54; 32;
   32; 32; 32; 32; 32; 32; 32; 32; 48; 32; 32; 32; 32; 32; 32; 32; 32; 32; 49; 10; 45; 49; 46; 49; 49; 49; 49; 49; 49; 69; 45; 48; 49; 32; 52; 46; 49;
   49; 49; 49; 49; 49; 69; 43; 48; 49; 32; 52; 46; 49; 49; 49; 49; 49; 49; 69; 43; 48; 51; 45; 51; 46; 49; 49; 49; 49; 49; 49; 69; 43; 48; 51; 45; 49;
   46; 49; 49; 49; 49; 49; 48; 69; 43; 48; 53; 45; 50; 46; 49; 49; 49; 49; 49; 48; 69; 43; 48; 53; 10; 32; 32; 32; 32; 49; 49; 49; 49; 49; 49; 10; 32;
   48; 46; 48; 48; 48; 48; 48; 48; 69; 43; 48; 48; 32; 48; 46; 48; 48; 48; 48; 48; 48; 69; 43; 48; 48; 32; 49; 46; 49; 49; 49; 49; 49; 49; 69; 45; 48;
   49; 32; 57; 46; 49; 49; 49; 49; 49; 49; 69; 45; 48; 50; 32; 55; 46; 49; 49; 49; 49; 49; 49; 69; 45; 48; 51; 32; 52; 46; 49; 49; 49; 49; 49; 49; 69;
   45; 48; 51; 10; 32; 32; 32; 32; 32; 32; 54; 48; 49; 48; 49; 10; 32; 48; 46; 48; 48; 48; 48; 48; 48; 69; 43; 48; 48; 32; 48; 46; 48; 48; 48; 48; 48;
   48; 69; 43; 48; 48; 32; 48; 46; 48; 48; 48; 48; 48; 48; 69; 43; 48; 48; 32; 48; 46; 48; 48; 48; 48; 48; 48; 69; 43; 48; 48; 45; 52; 46; 49; 49; 49;
   49; 49; 49; 69; 45; 48; 50; 45; 49; 46; 49; 49; 49; 49; 49; 49; 69; 45; 48; 50; 10; 32; 32; 32; 32; 45; 49; 10]%N.
(** Read by tests/test_55.py:9; the values are those in the file. *)
Example sample_modes : types_of f_modes = Some [55]%Z /\
  fields_of f_modes 0 (map KS ["analysis_type"; "n_data_per_node"; "mode_n"; "eig"; "node_nums"]) =
    Some [int 3; int 3; int 1; Some (VCplx (fl "-0.1111111") (fl "41.11111")); Some (vints [111111; 60101]%Z)] /\
  fields_of f_modes 0 (map KS ["r3"]) = Some [Some (VArr DCplx [VCplx (fl "0.007111111") (fl "0.004111111"); VCplx (fl "-0.04111111") (fl "-0.01111111")])].
Proof. vm_compute. repeat split. Qed.

(** tests/test_2467.py:40-102: the text that is written. *)
Definition group_2467 (n : Z) (name : string) (code : Z) (tags : list Z) (a : Z) : pyval :=
  VDict [(KS "group_number", VInt n); (KS "group_name", VStr (lit name)); (KS "entity_type_code", VList (map (fun _ => VInt code) tags));
         (KS "entity_tag", VList (map VInt tags)); (KS "entity_node_leaf_id", VList (map (fun _ => VInt 2) tags));
         (KS "entity_component_id", VList (map (fun _ => VInt 3) tags)); (KS "active_constraint_set_no_for_group", VInt a);
         (KS "active_restraint_set_no_for_group", VInt a); (KS "active_load_set_no_for_group", VInt a); (KS "active_dof_set_no_for_group", VInt a);
         (KS "active_temperature_set_no_for_group", VInt a); (KS "active_contact_set_no_for_group", VInt a)].
Definition d_2467 : dict := [(KS "type", VInt 2467); (KS "groups", VList [group_2467 1 "One" 8 [1; 2; 3; 4; 5]%Z 5; group_2467 2 "Two" 4 [6; 7; 8; 9; 10]%Z 6])].
Example sample_2467 : (let '(f, _, e) := write_sets noclock None uff0 [d_2467] (lit "add") true in (f, e)) = (Some (lit
"    -1
  2467
         1         5         5         5         5         5         5         5
One                                     
         8         1         2         3         8         2         2         3
         8         3         2         3         8         4         2         3
         8         5         2         3
         2         6         6         6         6         6         6         5
Two                                     
         4         6         2         3         4         7         2         3
         4         8         2         3         4         9         2         3
         4        10         2         3
    -1
"), None).
Proof. vm_compute. reflexivity. Qed.
