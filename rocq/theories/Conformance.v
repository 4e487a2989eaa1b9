(** Generated by tools/gen_conf_tests.py.

    The model, run on the airplanes of the repository's own tests.  These are tests, not
    proofs: they only show that the model computes the numbers the authors of MachUp
    compared their program with.  Expected values are copied from /repo/test/models and
    /repo/test/geometry; where a test gives two sets of numbers, the set for comparison with
    the Fortran MachUp is the right one, because llmodel.py line 86 sets _machup_compare.

    Two things in which the tests are older than the code at this commit: most of their
    airplane files lack the key "is_main", so that loading them raises KeyError
    ([old_files_do_not_load]; here [with_main] adds the key), and they read "l", "m", "n"
    instead of "MX", "MY", "MZ". *)
From Coq Require Import ZArith String Bool List.
From Verif Require Import Base Num Geometry Grid LLModel Fixed Conformance_data.
Import ListNotations.
Local Open Scope string_scope.

(** Runs a test with the virtual machine; the build fails if the result is not [true].  The
    result is deliberately not part of a proof term: the checker would run it again without
    the virtual machine, which takes hours. *)
Ltac passes b := let v := eval vm_compute in b in constr_eq v true; exact I.


Definition on_key (k : string) (f : pyval Z -> pyval Z) (v : pyval Z) : pyval Z :=
  match v with
  | VDict d => VDict (map (fun e => if String.eqb (fst e) k then (fst e, f (snd e)) else e) d)
  | v => v
  end.
Definition add_main (v : pyval Z) : pyval Z :=
  match v with
  | VDict d => match dget d "is_main" with Some _ => v | None => VDict (d ++ [("is_main", VBool true)])%list end
  | v => v
  end.
Definition with_main : pyval Z -> pyval Z :=
  on_key "wings" (fun v => match v with
                           | VDict d => VDict (map (fun e => (fst e, add_main (snd e))) d)
                           | v => v
                           end).
(** Airplane(inputfile=...) *)
Definition from_file (j : pyval Z) : res (airplane Z) :=
  match build_from_file j (new_airplane "" None) with (Ok _, pl) => Ok pl | (Err e, _) => Err e end.
Definition load (j : pyval Z) : res (airplane Z) := from_file (with_main j).
(** LLModel(plane).solve(stype="linear", ...) *)
Definition state_after (pl : airplane Z) (a : option (aero_state Z)) (c : option (dict Z)) : res (ll_state Z) :=
  rlet g := make_grid true pl in
  match ll_solve fsolve g (a_cg pl) "linear" a c (init_ll (g_num g)) with
  | (Ok _, s) => Ok s
  | (Err e, _) => Err e
  end.
Definition solve_at (j : pyval Z) (a : option (aero_state Z)) (c : option (dict Z)) : res (ll_results Z) :=
  rlet pl := load j in
  rlet s := state_after pl a c in
  match l_results s with Some x => Ok x | None => Err AttributeError end.
Definition flow (V al be rho : Z) : option (aero_state Z) :=
  Some (MkAero [("V_mag", V); ("alpha", al); ("beta", be); ("rho", rho)] None).
Definition ctl (a e r : Z) : option (dict Z) := Some [("aileron", a); ("elevator", e); ("rudder", r)].
Fixpoint all_within (e : Z) (l m : list Z) : bool :=
  match l, m with
  | [], [] => true
  | x :: l, y :: m => within e x y && all_within e l m
  | _, _ => false
  end.
Definition six (f : fm Z) : list Z := [FX f; FY f; FZ f; MX f; MY f; MZ f].
Definition eight (f : fm Z) : list Z := [FX f; FY f; FZ f; MX f; MY f; MZ f; FL f; FD f].
Definition agrees {A} (e : Z) (r : res A) (pick : A -> list Z) (expected : list Z) : bool :=
  match r with Ok x => all_within e (pick x) expected | Err _ => false end.
Definition coords (l : list (vec3 Z)) : list Z := flat_map (fun v => [vx v; vy v; vz v]) l.
Definition grid_of (cosine : bool) (j : pyval Z) : res (grid Z) := rlet pl := load j in make_grid cosine pl.
Definition column (f : section Z -> Z) (g : grid Z) : list Z := map f (g_sections g).
Definition vectors (f : section Z -> vec3 Z) (g : grid Z) : list Z := coords (map f (g_sections g)).


(** test/models/test_llmodel.py, line 115 *)
Definition linear_solver_forces : bool := 
  agrees 11 (solve_at straight_wing_5sect_json None None) (fun r => eight (r_inviscid r))
    [ndec (-526966008328708) 15; nint (0); ndec (-70231966640704) 12; nint (0); ndec (746222079691568) 14; nint (0); ndec (70231966640704) 12; ndec (526966008328708) 15].
Goal True. passes linear_solver_forces. Qed.

(** test/models/test_llmodel.py, line 153 *)
Definition linear_solver_elevator : bool := 
  agrees 11 (solve_at straight_wing_5sect_json None (ctl (nint (0)) (nint (5)) (nint (0)))) (fun r => six (r_inviscid r))
    [ndec (-1271228154600736) 15; nint (0); ndec (-9130837199496) 11; nint (0); ndec (1018140172047376) 14; nint (0)].
Goal True. passes linear_solver_elevator. Qed.

(** test/models/test_llmodel.py, line 185 *)
Definition linear_solver_aileron : bool := 
  agrees 11 (solve_at straight_wing_5sect_json None (ctl (nint (10)) (nint (0)) (nint (0)))) (fun r => six (r_inviscid r))
    [ndec (-1860539274135404) 15; nint (0); ndec (-70231966640704) 12; ndec (-1149155817416592) 13; ndec (7462293410376) 12; ndec (31614153455695424) 16].
Goal True. passes linear_solver_aileron. Qed.

(** test/models/test_llmodel.py, line 217 *)
Definition linear_solver_elevon : bool := 
  agrees 11 (solve_at straight_wing_5sect_json None (ctl (nint (10)) (nint (5)) (nint (0)))) (fun r => six (r_inviscid r))
    [ndec (-2480850404279352) 15; nint (0); ndec (-902059138687376) 13; ndec (-11191009729610848) 14; ndec (974288153637316) 14; ndec (700013742479728) 14].
Goal True. passes linear_solver_elevon. Qed.

(** test/models/test_llmodel.py, line 249 *)
Definition linear_solver_alpha : bool := 
  agrees 11 (solve_at straight_wing_5sect_json (flow (nint (10)) (nint (5)) (nint (0)) (nint (1))) None) (fun r => eight (r_inviscid r))
    [ndec (1467468691879812) 14; nint (0); ndec (-2365833466303036) 13; nint (0); ndec (74878630789158) 12; nint (0); ndec (2369620588079072) 13; ndec (600075199262784) 14].
Goal True. passes linear_solver_alpha. Qed.

(** test/models/test_llmodel.py, line 292 *)
Definition linear_solver_alpha_2 : bool := 
  agrees 11 (solve_at straight_wing_5sect_json (flow (nint (10)) (nint (5)) (nint (0)) (nint (1))) (ctl (nint (10)) (nint (5)) (nint (0)))) (fun r => six (r_inviscid r))
    [ndec (1352618937379032) 14; nint (0); ndec (-256754628632242) 12; ndec (-11290040238093696) 14; ndec (772384210265236) 13; ndec (4520406928025792) 15].
Goal True. passes linear_solver_alpha_2. Qed.

(** test/models/test_llmodel.py, line 335 (FL is left out: the number in the test is the length of the force across the flow, side force included, from before the code had FS) *)
Definition linear_solver_beta : bool := 
  agrees 11 (solve_at straight_wing_5sect_json (flow (nint (10)) (nint (0)) (nint (6)) (nint (1))) (ctl (nint (0)) (nint (0)) (nint (0)))) (fun r => six (r_inviscid r))
    [ndec (-532852747154772) 15; nint (0); ndec (-700573927876) 10; ndec (3469167810350592) 15; ndec (739085980552516) 14; ndec (3240530676718144) 17].
Goal True. passes linear_solver_beta. Qed.

(** test/models/test_llmodel.py, line 382 *)
Definition linear_solver_planeV1 : bool := 
  agrees 11 (solve_at straight_simple_plane_json (flow (nint (10)) (nint (0)) (nint (0)) (nint (1))) (ctl (nint (0)) (nint (0)) (nint (0)))) (fun r => six (r_inviscid r))
    [ndec (-303816880778566) 14; nint (0); ndec (-16689424176335) 11; nint (0); ndec (3552509912258904) 14; nint (0)].
Goal True. passes linear_solver_planeV1. Qed.

(** test/models/test_llmodel.py, line 425 *)
Definition linear_solver_planeV1_2 : bool := 
  agrees 11 (solve_at straight_simple_plane_json (flow (nint (10)) (nint (5)) (nint (3)) (nint (1))) (ctl (nint (-4)) (nint (2)) (nint (-2)))) (fun r => six (r_inviscid r))
    [ndec (1729793554972928) 14; ndec (-932855145159024) 15; ndec (-3449978204904604) 13; ndec (402656904447408) 13; ndec (380889875079734) 13; ndec (3814751393384896) 15].
Goal True. passes linear_solver_planeV1_2. Qed.

(** test/models/test_llmodel.py, line 559 *)
Definition linear_solver_v_stab : bool := 
  agrees 11 (solve_at vertical_wing_5sect_json (flow (nint (10)) (nint (0)) (nint (5)) (nint (1))) (ctl (nint (0)) (nint (0)) (nint (0)))) (fun r => six (r_inviscid r))
    [ndec (459049176382564) 14; ndec (-98544733978638) 12; nint (0); ndec (-19708946795727584) 14; ndec (-918098352765124) 14; ndec (-29435574149867296) 15].
Goal True. passes linear_solver_v_stab. Qed.

(** test/models/test_llmodel.py, line 650 *)
Definition linear_solver_taper : bool := 
  agrees 11 (solve_at tapered_wing_5sect_json (flow (nint (10)) (nint (4)) (nint (0)) (nint (1))) None) (fun r => six (r_inviscid r))
    [ndec (639210666463917) 14; nint (0); ndec (-1090733088751725) 13; nint (0); ndec (43629323550069) 12; nint (0)].
Goal True. passes linear_solver_taper. Qed.

(** test/models/test_llmodel.py, line 691 *)
Definition linear_solver_washout : bool := 
  agrees 11 (solve_at washout_wing_5sect_json (flow (nint (10)) (nint (4)) (nint (0)) (nint (1))) None) (fun r => six (r_inviscid r))
    [ndec (978291624932572) 14; nint (0); ndec (-2033830263936064) 13; nint (0); ndec (614233981148536) 13; nint (0)].
Goal True. passes linear_solver_washout. Qed.

(** test/models/test_llmodel.py, line 732 *)
Definition linear_solver_aero_twist : bool := 
  agrees 11 (solve_at aerodynamic_twist_wing_5sect_json (flow (nint (10)) (nint (0)) (nint (0)) (nint (1))) None) (fun r => six (r_inviscid r))
    [ndec (-1745210592682372) 16; nint (0); ndec (-380253143824066) 13; nint (0); ndec (491825127187904) 14; nint (0)].
Goal True. passes linear_solver_aero_twist. Qed.

(** test/models/test_llmodel.py, line 773 *)
Definition linear_solver_yoffset : bool := 
  agrees 11 (solve_at yoffset_wing_5sect_json (flow (nint (10)) (nint (0)) (nint (0)) (nint (1))) None) (fun r => six (r_inviscid r))
    [ndec (-676938452287252) 15; nint (0); ndec (-606305736273284) 13; nint (0); ndec (3571166107486492) 15; nint (0)].
Goal True. passes linear_solver_yoffset. Qed.

(** test/models/test_llmodel.py, line 888 *)
Definition linear_solver_tapered_controls : bool := 
  agrees 11 (solve_at tapered_control_5sect_json (flow (nint (10)) (nint (0)) (nint (0)) (nint (1))) (ctl (nint (5)) (nint (0)) (nint (0)))) (fun r => six (r_inviscid r))
    [ndec (-1575517049961504) 15; nint (0); ndec (-70231966640704) 12; ndec (-12591574060910944) 14; ndec (746224332442912) 14; ndec (28580438598242272) 16].
Goal True. passes linear_solver_tapered_controls. Qed.

(** test/models/test_llmodel.py, line 958 *)
Definition linear_solver_parasitic_drag : bool := 
  agrees 11 (solve_at straight_wing_5sect_json (flow (nint (10)) (nint (2)) (nint (3)) (nint (1))) (ctl (nint (5)) (nint (0)) (nint (0)))) (fun r => six (r_viscous r))
    [ndec (-3181658609346748) 15; ndec (-1666424405268972) 16; ndec (-55729782503186) 15; ndec (11089009322463552) 17; ndec (2229191300127436) 17; ndec (-1502391657310288) 16].
Goal True. passes linear_solver_parasitic_drag. Qed.

(** test/models/test_llmodel.py, line 814 *)
Definition rolling : option (aero_state Z) :=
  Some (MkAero [("V_mag", nint 10); ("alpha", nint 0); ("beta", nint 0); ("rho", nint 1);
                ("roll_rate", ndec 1 1); ("pitch_rate", nint 0); ("yaw_rate", nint 0)] None).

(** test/models/test_llmodel.py, line 814 *)
Definition linear_solver_roll_rate : bool := 
  agrees 11 (solve_at straight_wing_5sect_json rolling None) (fun r => six (r_inviscid r))
    [ndec (-69689131405571692) 18; nint (0); ndec (-7024806393496842) 14; ndec (-752040101199881408) 16; ndec (74575052679046904) 16; ndec (-1133719298990988096) 18].
Goal True. passes linear_solver_roll_rate. Qed.

(** test/models/test_llmodel.py, line 858 *)
Definition roll_rate_velocities : bool := 
  agrees 14 (rlet pl := load straight_wing_5sect_json in state_after pl rolling None) (fun s => coords (l_v s))
    [nint (-10); nint (0); ndec (390211303259031) 15; nint (-10); nint (0); ndec (317557050458495) 15; nint (-10); nint (0); ndec (2) 1; nint (-10); nint (0); ndec (82442949541505) 15; nint (-10); nint (0); ndec (9788696740969) 15; nint (-10); nint (0); ndec (-9788696740969) 15; nint (-10); nint (0); ndec (-82442949541505) 15; nint (-10); nint (0); ndec (-2) 1; nint (-10); nint (0); ndec (-317557050458495) 15; nint (-10); nint (0); ndec (-390211303259031) 15].
Goal True. passes roll_rate_velocities. Qed.

(** test/models/test_llmodel.py, line 931 *)
Definition local_rows : list (Z * vec3 Z) :=
  [(nint (1), V3 (ndec (-102) 1) (nint (0)) (ndec (-3) 1));
   (ndec (105) 2, V3 (ndec (-106) 1) (ndec (2) 2) (ndec (-32) 2));
   (ndec (112) 2, V3 (ndec (-101) 1) (ndec (2) 2) (ndec (-32) 2));
   (ndec (13) 1, V3 (ndec (-102) 1) (ndec (4) 2) (ndec (-33) 2));
   (ndec (101) 2, V3 (ndec (-103) 1) (ndec (2) 2) (ndec (-31) 2));
   (ndec (104) 2, V3 (ndec (-103) 1) (ndec (2) 2) (ndec (-31) 2));
   (ndec (102) 2, V3 (ndec (-106) 1) (ndec (1) 2) (ndec (-31) 2));
   (ndec (105) 2, V3 (ndec (-106) 1) (ndec (5) 2) (ndec (-34) 2));
   (ndec (115) 2, V3 (ndec (-103) 1) (ndec (2) 2) (ndec (-32) 2));
   (ndec (105) 2, V3 (ndec (-104) 1) (ndec (2) 2) (ndec (-32) 2))].

(** test/models/test_llmodel.py, line 931 *)
Definition local_velocity_input : bool := 
  agrees 12 (rlet pl := load straight_wing_5sect_json in state_after pl (Some (MkAero [] (Some local_rows))) None)
    (fun s => l_rho s ++ coords (l_v s) ++ coords [l_uinf s])%list
    [nint (1); ndec (105) 2; ndec (112) 2; ndec (13) 1; ndec (101) 2; ndec (104) 2; ndec (102) 2; ndec (105) 2; ndec (115) 2; ndec (105) 2; ndec (-102) 1; nint (0); ndec (-3) 1; ndec (-106) 1; ndec (2) 2; ndec (-32) 2; ndec (-101) 1; ndec (2) 2; ndec (-32) 2; ndec (-102) 1; ndec (4) 2; ndec (-33) 2; ndec (-103) 1; ndec (2) 2; ndec (-31) 2; ndec (-103) 1; ndec (2) 2; ndec (-31) 2; ndec (-106) 1; ndec (1) 2; ndec (-31) 2; ndec (-106) 1; ndec (5) 2; ndec (-34) 2; ndec (-103) 1; ndec (2) 2; ndec (-32) 2; ndec (-104) 1; ndec (2) 2; ndec (-32) 2; ndec (-999526990162502) 15; ndec (2122547662507) 15; ndec (-3068046166715) 14].
Goal True. passes local_velocity_input. Qed.

(** test/models/test_llgrid.py, line 94 *)
Definition integral_of_chord_squared : bool := 
  agrees 13 (grid_of true dihedral_sweep_wing_json) (column (@s_ic2 Z))
    [ndec (3819660112501050975) 19; nint (1); ndec (1236067977499789805) 18; nint (1); ndec (3819660112501050975) 19; ndec (3819660112501050975) 19; nint (1); ndec (1236067977499789805) 18; nint (1); ndec (3819660112501050975) 19].
Goal True. passes integral_of_chord_squared. Qed.

(** test/models/test_llgrid.py, line 180 *)
Definition grid_position_linear : bool := 
  agrees 13 (grid_of false straight_wing_5sect_json) (vectors (@s_r Z))
    [nint (0); ndec (-36) 1; nint (0); nint (0); ndec (-28) 1; nint (0); nint (0); nint (-2); nint (0); nint (0); ndec (-12) 1; nint (0); nint (0); ndec (-4) 1; nint (0); nint (0); ndec (4) 1; nint (0); nint (0); ndec (12) 1; nint (0); nint (0); nint (2); nint (0); nint (0); ndec (28) 1; nint (0); nint (0); ndec (36) 1; nint (0)].
Goal True. passes grid_position_linear. Qed.

(** test/models/test_llgrid.py, line 180 *)
Definition grid_corner_1_linear : bool := 
  agrees 13 (grid_of false straight_wing_5sect_json) (vectors (@s_r1 Z))
    [nint (0); nint (-4); nint (0); nint (0); ndec (-32) 1; nint (0); nint (0); ndec (-24) 1; nint (0); nint (0); ndec (-16) 1; nint (0); nint (0); ndec (-8) 1; nint (0); nint (0); nint (0); nint (0); nint (0); ndec (8) 1; nint (0); nint (0); ndec (16) 1; nint (0); nint (0); ndec (24) 1; nint (0); nint (0); ndec (32) 1; nint (0)].
Goal True. passes grid_corner_1_linear. Qed.

(** test/models/test_llgrid.py, line 180 *)
Definition grid_corner_2_linear : bool := 
  agrees 13 (grid_of false straight_wing_5sect_json) (vectors (@s_r2 Z))
    [nint (0); ndec (-32) 1; nint (0); nint (0); ndec (-24) 1; nint (0); nint (0); ndec (-16) 1; nint (0); nint (0); ndec (-8) 1; nint (0); nint (0); nint (0); nint (0); nint (0); ndec (8) 1; nint (0); nint (0); ndec (16) 1; nint (0); nint (0); ndec (24) 1; nint (0); nint (0); ndec (32) 1; nint (0); nint (0); nint (4); nint (0)].
Goal True. passes grid_corner_2_linear. Qed.

(** test/models/test_llgrid.py, line 145 (numbers of line 160) *)
Definition grid_position_swept : bool := 
  agrees 13 (grid_of true swept_wing_5sect_json) (vectors (@s_r Z))
    [ndec (-48776412907378832) 16; ndec (-48776412907378832) 16; nint (0); ndec (-39694631307311816) 16; ndec (-39694631307311816) 16; nint (0); ndec (-25) 1; ndec (-25) 1; nint (0); ndec (-1030536869268817) 15; ndec (-1030536869268817) 15; nint (0); ndec (-12235870926211616) 17; ndec (-12235870926211616) 17; nint (0); ndec (-12235870926211616) 17; ndec (12235870926211616) 17; nint (0); ndec (-1030536869268817) 15; ndec (1030536869268817) 15; nint (0); ndec (-25) 1; ndec (25) 1; nint (0); ndec (-39694631307311816) 16; ndec (39694631307311816) 16; nint (0); ndec (-48776412907378832) 16; ndec (48776412907378832) 16; nint (0)].
Goal True. passes grid_position_swept. Qed.

(** test/models/test_llgrid.py, line 198 *)
Definition grid_linear_interp : bool := 
  agrees 13 (grid_of true aerodynamic_twist_wing_5sect_json) (column (fun s => tm (s_cla s)))
    [ndec (628110521889743) 14; ndec (626555720879812) 14; ndec (62404) 4; ndec (621524279120188) 14; ndec (619969478110257) 14; ndec (619969478110257) 14; ndec (621524279120188) 14; ndec (62404) 4; ndec (626555720879812) 14; ndec (628110521889743) 14].
Goal True. passes grid_linear_interp. Qed.

(** test/models/test_llgrid.py, line 210 *)
Definition grid_lift_slope : bool := 
  agrees 13 (grid_of true straight_wing_5sect_json) (column (fun s => tm (s_cla s)))
    [ndec (61976) 4; ndec (61976) 4; ndec (61976) 4; ndec (61976) 4; ndec (61976) 4; ndec (61976) 4; ndec (61976) 4; ndec (61976) 4; ndec (61976) 4; ndec (61976) 4].
Goal True. passes grid_lift_slope. Qed.

(** test/models/test_llgrid.py, line 219 *)
Definition grid_area : bool := 
  agrees 13 (grid_of true straight_wing_5sect_json) (column (@s_dS Z))
    [ndec (381966011250105) 15; nint (1); ndec (123606797749979) 14; nint (1); ndec (381966011250105) 15; ndec (381966011250105) 15; nint (1); ndec (123606797749979) 14; nint (1); ndec (381966011250105) 15].
Goal True. passes grid_area. Qed.

(** test/models/test_llgrid.py, line 229 *)
Definition grid_swept_area : bool := 
  agrees 13 (grid_of true swept_wing_5sect_json) (column (@s_dS Z))
    [ndec (954915028125264) 15; ndec (25) 1; ndec (309016994374947) 14; ndec (25) 1; ndec (954915028125263) 15; ndec (954915028125263) 15; ndec (25) 1; ndec (309016994374947) 14; ndec (25) 1; ndec (954915028125264) 15].
Goal True. passes grid_swept_area. Qed.

(** test/models/test_llgrid.py, line 241 *)
Definition grid_tapered_area : bool := 
  agrees 13 (grid_of true tapered_wing_5sect_json) (column (@s_dS Z))
    [ndec (200101632734447) 15; ndec (610245751406263) 15; ndec (927050983124842) 15; ndec (889754248593737) 15; ndec (37284738414071) 14; ndec (37284738414071) 14; ndec (889754248593737) 15; ndec (927050983124842) 15; ndec (610245751406263) 15; ndec (200101632734447) 15].
Goal True. passes grid_tapered_area. Qed.

(** test/models/test_llgrid.py, line 253 *)
Definition grid_tapered_chord_1 : bool := 
  agrees 13 (grid_of true tapered_wing_5sect_json) (column (@s_c1 Z))
    [ndec (5) 1; ndec (547745751406263) 15; ndec (672745751406263) 15; ndec (827254248593737) 15; ndec (952254248593737) 15; nint (1); ndec (952254248593737) 15; ndec (827254248593737) 15; ndec (672745751406263) 15; ndec (547745751406263) 15].
Goal True. passes grid_tapered_chord_1. Qed.

(** test/models/test_llgrid.py, line 253 *)
Definition grid_tapered_chord_2 : bool := 
  agrees 13 (grid_of true tapered_wing_5sect_json) (column (@s_c2 Z))
    [ndec (547745751406263) 15; ndec (672745751406263) 15; ndec (827254248593737) 15; ndec (952254248593737) 15; nint (1); ndec (952254248593737) 15; ndec (827254248593737) 15; ndec (672745751406263) 15; ndec (547745751406263) 15; ndec (5) 1].
Goal True. passes grid_tapered_chord_2. Qed.

(** test/models/test_llgrid.py, line 271 *)
Definition grid_normals_ua : bool := 
  agrees 13 (grid_of true straight_wing_5sect_json) (vectors (@s_ua Z))
    [nint (-1); nint (0); nint (0); nint (-1); nint (0); nint (0); nint (-1); nint (0); nint (0); nint (-1); nint (0); nint (0); nint (-1); nint (0); nint (0); nint (-1); nint (0); nint (0); nint (-1); nint (0); nint (0); nint (-1); nint (0); nint (0); nint (-1); nint (0); nint (0); nint (-1); nint (0); nint (0)].
Goal True. passes grid_normals_ua. Qed.

(** test/models/test_llgrid.py, line 271 *)
Definition grid_normals_un : bool := 
  agrees 13 (grid_of true straight_wing_5sect_json) (vectors (@s_un Z))
    [nint (0); nint (0); nint (-1); nint (0); nint (0); nint (-1); nint (0); nint (0); nint (-1); nint (0); nint (0); nint (-1); nint (0); nint (0); nint (-1); nint (0); nint (0); nint (-1); nint (0); nint (0); nint (-1); nint (0); nint (0); nint (-1); nint (0); nint (0); nint (-1); nint (0); nint (0); nint (-1)].
Goal True. passes grid_normals_un. Qed.

(** test/models/test_llgrid.py, line 271 *)
Definition grid_normals_us : bool := 
  agrees 13 (grid_of true straight_wing_5sect_json) (vectors (@s_us Z))
    [nint (0); nint (-1); nint (0); nint (0); nint (-1); nint (0); nint (0); nint (-1); nint (0); nint (0); nint (-1); nint (0); nint (0); nint (-1); nint (0); nint (0); nint (-1); nint (0); nint (0); nint (-1); nint (0); nint (0); nint (-1); nint (0); nint (0); nint (-1); nint (0); nint (0); nint (-1); nint (0)].
Goal True. passes grid_normals_us. Qed.

(** test/models/test_llgrid.py, line 288 *)
Definition grid_vertical_ua : bool := 
  agrees 13 (grid_of true vertical_wing_5sect_json) (vectors (@s_ua Z))
    [nint (-1); nint (0); nint (0); nint (-1); nint (0); nint (0); nint (-1); nint (0); nint (0); nint (-1); nint (0); nint (0); nint (-1); nint (0); nint (0)].
Goal True. passes grid_vertical_ua. Qed.

(** test/models/test_llgrid.py, line 288 *)
Definition grid_vertical_un : bool := 
  agrees 13 (grid_of true vertical_wing_5sect_json) (vectors (@s_un Z))
    [nint (0); nint (-1); nint (0); nint (0); nint (-1); nint (0); nint (0); nint (-1); nint (0); nint (0); nint (-1); nint (0); nint (0); nint (-1); nint (0)].
Goal True. passes grid_vertical_un. Qed.

(** test/models/test_llgrid.py, line 288 *)
Definition grid_vertical_us : bool := 
  agrees 13 (grid_of true vertical_wing_5sect_json) (vectors (@s_us Z))
    [nint (0); nint (0); nint (1); nint (0); nint (0); nint (1); nint (0); nint (0); nint (1); nint (0); nint (0); nint (1); nint (0); nint (0); nint (1)].
Goal True. passes grid_vertical_us. Qed.

(** test/models/test_llgrid.py, line 305 *)
Definition grid_yoffset : bool := 
  agrees 13 (grid_of true yoffset_wing_5sect_json) (vectors (@s_r Z))
    [nint (0); ndec (-4402113032590307284) 18; nint (0); nint (0); ndec (-367557050458494583) 17; nint (0); nint (0); ndec (-25) 1; nint (0); nint (0); ndec (-1324429495415053726) 18; nint (0); nint (0); ndec (-5978869674096929376) 19; nint (0); nint (0); ndec (5978869674096929376) 19; nint (0); nint (0); ndec (1324429495415053726) 18; nint (0); nint (0); ndec (25) 1; nint (0); nint (0); ndec (367557050458494583) 17; nint (0); nint (0); ndec (4402113032590307284) 18; nint (0)].
Goal True. passes grid_yoffset. Qed.

(** test/models/test_llgrid.py, line 323 *)
Definition grid_flap_effectiveness : bool := 
  agrees 13 (grid_of true straight_wing_5sect_json) (column (@s_flap_eff Z))
    [nint (0); ndec (5418715959841) 13; nint (0); nint (0); nint (0); nint (0); nint (0); nint (0); ndec (5418715959841) 13; nint (0)].
Goal True. passes grid_flap_effectiveness. Qed.

(** test/models/test_llgrid.py, line 333 *)
Definition grid_mix_aileron : bool := 
  agrees 13 (grid_of true straight_wing_5sect_json) (column (@s_mix_a Z))
    [nint (0); nint (-1); nint (0); nint (0); nint (0); nint (0); nint (0); nint (0); nint (1); nint (0)].
Goal True. passes grid_mix_aileron. Qed.

(** test/models/test_llgrid.py, line 333 *)
Definition grid_mix_elevator : bool := 
  agrees 13 (grid_of true straight_wing_5sect_json) (column (@s_mix_e Z))
    [nint (0); nint (1); nint (0); nint (0); nint (0); nint (0); nint (0); nint (0); nint (1); nint (0)].
Goal True. passes grid_mix_elevator. Qed.

(** test/models/test_llgrid.py, line 333 *)
Definition grid_mix_rudder : bool := 
  agrees 13 (grid_of true straight_wing_5sect_json) (column (@s_mix_r Z))
    [nint (0); nint (0); nint (0); nint (0); nint (0); nint (0); nint (0); nint (0); nint (0); nint (0)].
Goal True. passes grid_mix_rudder. Qed.

(** test/models/test_llgrid.py, line 333 *)
Definition grid_mix_flap : bool := 
  agrees 13 (grid_of true straight_wing_5sect_json) (column (@s_mix_f Z))
    [nint (0); nint (0); nint (0); nint (0); nint (0); nint (0); nint (0); nint (0); nint (0); nint (0)].
Goal True. passes grid_mix_flap. Qed.

(** test/models/test_llgrid.py, line 351 *)
Definition grid_cm_delta : bool := 
  agrees 13 (grid_of true straight_wing_5sect_json) (column (@s_cmd Z))
    [nint (0); ndec (-649519052838329) 15; nint (0); nint (0); nint (0); nint (0); nint (0); nint (0); ndec (-649519052838329) 15; nint (0)].
Goal True. passes grid_cm_delta. Qed.

(** test/geometry/test_airplane.py, lines 33-39 *)
Example number_of_sections :
  (rlet pl := load single_wing_json in Ok (num_sections pl, List.length (wingsegments pl))) = Ok (80, 2)%nat.
Proof. vm_compute. reflexivity. Qed.

(** test/geometry/test_airplane.py, line 42 *)
Definition tips (name : string) : res (list Z) :=
  rlet pl := load multisegment_wing_json in
  match find (fun s => String.eqb (sg_name s) name) (wingsegments pl) with
  | Some s => rlet l := seg_position 10 pl s "left_tip" in
              rlet r := seg_position 10 pl s "right_tip" in
              Ok (coords [l; r])
  | None => Err KeyError
  end.

(** test/geometry/test_airplane.py, line 42 *)
Definition multisegment_left_outer : bool := 
  agrees 12 (tips "left_outer") (fun l => l)
    [ndec (-1999093082074) 13; ndec (-79392310120488) 13; ndec (-79459271066772) 14; ndec (1500453458963) 13; ndec (-39392310120488) 13; ndec (-79459271066772) 14].
Goal True. passes multisegment_left_outer. Qed.

(** test/geometry/test_airplane.py, line 42 *)
Definition multisegment_left_inner : bool := 
  agrees 12 (tips "left_inner") (fun l => l)
    [ndec (1500453458963) 13; ndec (-39392310120488) 13; ndec (-79459271066772) 14; ndec (5) 1; nint (0); ndec (-1) 1].
Goal True. passes multisegment_left_inner. Qed.

(** test/geometry/test_airplane.py, line 42 *)
Definition multisegment_right_inner : bool := 
  agrees 12 (tips "right_inner") (fun l => l)
    [ndec (5) 1; nint (0); ndec (-1) 1; ndec (1500453458963) 13; ndec (39392310120488) 13; ndec (-79459271066772) 14].
Goal True. passes multisegment_right_inner. Qed.

(** test/geometry/test_airplane.py, line 42 *)
Definition multisegment_right_outer : bool := 
  agrees 12 (tips "right_outer") (fun l => l)
    [ndec (1500453458963) 13; ndec (39392310120488) 13; ndec (-79459271066772) 14; ndec (-1999093082074) 13; ndec (79392310120488) 13; ndec (-79459271066772) 14].
Goal True. passes multisegment_right_outer. Qed.

(** The test files without "is_main" cannot be loaded any more. *)
Example old_files_do_not_load :
  map from_file [straight_wing_5sect_json; straight_simple_plane_json; single_wing_json; tapered_wing_5sect_json]
  = [Err KeyError; Err KeyError; Err KeyError; Err KeyError].
Proof. vm_compute. reflexivity. Qed.
