#!/usr/bin/env python3
"""Writes rocq/theories/Conformance.v: the numbers asserted by the repository's tests
(test/models, test/geometry) against the model run with fixed-point numbers."""
import decimal
from decimal import Decimal as D
HEAD = r'''(** Generated by tools/gen_conf_tests.py.

    The model, run on the airplanes of the repository's own tests.  These are tests, not
    proofs: they only show that the model computes the numbers the authors of MachUp
    compared their program with.  Expected values are copied from /repo/test/models and
    /repo/test/geometry; where a test gives two sets of numbers, the set for comparison with
    the Fortran MachUp is the right one, because llmodel.py line 86 sets _machup_compare.

    Two things in which the tests are older than the code at this commit: most of their
    airplane files lack the key "is_main", so that loading them raises KeyError
    ([old_files_do_not_load]; here [with_main] adds the key), and they read "l", "m", "n"
    instead of "MX", "MY", "MZ". *)
From Coq Require Import ZArith String Bool List.
From Verif Require Import Base Num Geometry Grid LLModel Fixed Conformance_data.
Import ListNotations.
Local Open Scope string_scope.

(** Runs a test with the virtual machine; the build fails if the result is not [true].  The
    result is deliberately not part of a proof term: the checker would run it again without
    the virtual machine, which takes hours. *)
Ltac passes b := let v := eval vm_compute in b in constr_eq v true; exact I.


Definition on_key (k : string) (f : pyval Z -> pyval Z) (v : pyval Z) : pyval Z :=
  match v with
  | VDict d => VDict (map (fun e => if String.eqb (fst e) k then (fst e, f (snd e)) else e) d)
  | v => v
  end.
Definition add_main (v : pyval Z) : pyval Z :=
  match v with
  | VDict d => match dget d "is_main" with Some _ => v | None => VDict (d ++ [("is_main", VBool true)])%list end
  | v => v
  end.
Definition with_main : pyval Z -> pyval Z :=
  on_key "wings" (fun v => match v with
                           | VDict d => VDict (map (fun e => (fst e, add_main (snd e))) d)
                           | v => v
                           end).
(** Airplane(inputfile=...) *)
Definition from_file (j : pyval Z) : res (airplane Z) :=
  match build_from_file j (new_airplane "" None) with (Ok _, pl) => Ok pl | (Err e, _) => Err e end.
Definition load (j : pyval Z) : res (airplane Z) := from_file (with_main j).
(** LLModel(plane).solve(stype="linear", ...) *)
Definition state_after (pl : airplane Z) (a : option (aero_state Z)) (c : option (dict Z)) : res (ll_state Z) :=
  rlet g := make_grid true pl in
  match ll_solve fsolve g (a_cg pl) "linear" a c (init_ll (g_num g)) with
  | (Ok _, s) => Ok s
  | (Err e, _) => Err e
  end.
Definition solve_at (j : pyval Z) (a : option (aero_state Z)) (c : option (dict Z)) : res (ll_results Z) :=
  rlet pl := load j in
  rlet s := state_after pl a c in
  match l_results s with Some x => Ok x | None => Err AttributeError end.
Definition flow (V al be rho : Z) : option (aero_state Z) :=
  Some (MkAero [("V_mag", V); ("alpha", al); ("beta", be); ("rho", rho)] None).
Definition ctl (a e r : Z) : option (dict Z) := Some [("aileron", a); ("elevator", e); ("rudder", r)].
Fixpoint all_within (e : Z) (l m : list Z) : bool :=
  match l, m with
  | [], [] => true
  | x :: l, y :: m => within e x y && all_within e l m
  | _, _ => false
  end.
Definition six (f : fm Z) : list Z := [FX f; FY f; FZ f; MX f; MY f; MZ f].
Definition eight (f : fm Z) : list Z := [FX f; FY f; FZ f; MX f; MY f; MZ f; FL f; FD f].
Definition agrees {A} (e : Z) (r : res A) (pick : A -> list Z) (expected : list Z) : bool :=
  match r with Ok x => all_within e (pick x) expected | Err _ => false end.
Definition coords (l : list (vec3 Z)) : list Z := flat_map (fun v => [vx v; vy v; vz v]) l.
Definition grid_of (cosine : bool) (j : pyval Z) : res (grid Z) := rlet pl := load j in make_grid cosine pl.
Definition column (f : section Z -> Z) (g : grid Z) : list Z := map f (g_sections g).
Definition vectors (f : section Z -> vec3 Z) (g : grid Z) : list Z := coords (map f (g_sections g)).

'''
out = [HEAD]
def d(x):
    sign, digits, exp = D(x).as_tuple()
    m = int(''.join(map(str, digits))) * (-1 if sign else 1)
    if exp > 0: m, exp = m * 10 ** exp, 0
    while m and m % 10 == 0 and exp < 0: m //= 10; exp += 1
    if m == 0: exp = 0
    if exp == 0: return 'nint (%d)' % m
    return 'ndec (%d) %d' % (m, -exp)
decimal.getcontext().prec = 60
def lst(l): return '[' + '; '.join(d(x) for x in l) + ']'
def scaled(vals, q, lat, lon=1):
    k = [q, q, q, D(q) * lat, D(q) * lon, D(q) * lat, q, q]
    return [D(v) * D(s) for v, s in zip(vals, k)]
def ex(name, cite, body):
    out.append('(** %s *)\nDefinition %s : bool := %s.\nGoal True. passes %s. Qed.\n' % (cite, name, body, name))
def solve(name, line, js, fl, ct, vals, q=400, lat=8, lon=1, part='r_inviscid', tol=11):
    f = 'None' if fl is None else '(flow %s)' % ' '.join('(%s)' % d(x) for x in fl)
    c = 'None' if ct is None else '(ctl %s)' % ' '.join('(%s)' % d(x) for x in ct)
    pick = 'six' if len(vals) == 6 else 'eight'
    ex(name, 'test/models/test_llmodel.py, line %s' % line,
       '\n  agrees %d (solve_at %s_json %s %s) (fun r => %s (%s r))\n    %s' % (tol, js, f, c, pick, part, lst(scaled(vals, q, lat, lon))))
S = 'straight_wing_5sect'
solve('linear_solver_forces', 115, S, None, None, ['-1.31741502082177E-003', '0', '-1.75579916601760E-001', '0', '1.86555519922892E-002', '0', '1.75579916601760E-001', '1.31741502082177E-003'])
solve('linear_solver_elevator', 153, S, None, [0, 5, 0], ['-3.17807038650184E-003', '0', '-2.28270929987400E-001', '0', '2.54535043011844E-002', '0'])
solve('linear_solver_aileron', 185, S, None, [10, 0, 0], ['-4.65134818533851E-003', '0', '-1.75579916601760E-001', '-3.59111192942685E-002', '1.86557335259400E-002', '9.87942295490482E-004'])
solve('linear_solver_elevon', 217, S, None, [10, 5, 0], ['-6.20212601069838E-003', '0', '-2.25514784671844E-001', '-3.49719054050339E-002', '2.43572038409329E-002', '2.18754294524915E-003'])
solve('linear_solver_alpha', 249, S, [10, 5, 0, 1], None, ['3.66867172969953E-002', '0', '-5.91458366575759E-001', '0', '1.87196576972895E-001', '0', '5.92405147019768E-001', '1.50018799815696E-002'])
solve('linear_solver_alpha_2', 292, S, [10, 5, 0, 1], [10, 5, 0], ['3.38154734344758E-002', '0', '-6.41886571580605E-001', '-3.52813757440428E-002', '1.93096052566309E-001', '1.41262716500806E-003'])
solve('linear_solver_beta', '335 (FL is left out: the number in the test is the length of the force across the flow, side force included, from before the code had FS)', S, [10, 0, 6, 1], [0, 0, 0], ['-1.33213186788693E-003', '0', '-1.75143481969000E-001', '1.08411494073456E-003', '1.84771495138129E-002', '1.01266583647442E-005'])
P1 = 'straight_simple_plane'
solve('linear_solver_planeV1', 382, P1, [10, 0, 0, 1], [0, 0, 0], ['-7.59542201946415E-003', '0', '-4.17235604408375E-001', '0', '8.88127478064726E-002', '0'])
solve('linear_solver_planeV1_2', 425, P1, [10, 5, 3, 1], [-4, 2, -2], ['4.32448388743232E-002', '-2.33213786289756E-003', '-8.62494551226151E-001', '1.25830282639815E-002', '9.52224687699335E-002', '1.19210981043278E-003'])
solve('linear_solver_v_stab', 559, 'vertical_wing_5sect', [10, 0, 5, 1], [0, 0, 0], ['1.14762294095641E-002', '-2.46361834946595E-001', '0', '-6.15904587366487E-002', '-2.29524588191281E-002', '-9.19861692183353E-003'])
solve('linear_solver_taper', 650, 'tapered_wing_5sect', [10, 4, 0, 1], None, ['2.13070222154639E-002', '0', '-3.63577696250575E-001', '0', '1.45431078500230E-001', '0'], q=300)
solve('linear_solver_washout', 691, 'washout_wing_5sect', [10, 4, 0, 1], None, ['2.44572906233143E-002', '0', '-5.08457565984016E-001', '0', '1.53558495287134E-001', '0'])
solve('linear_solver_aero_twist', 732, 'aerodynamic_twist_wing_5sect', [10, 0, 0, 1], None, ['-4.36302648170593E-004', '0', '-9.50632859560165E-002', '0', '1.22956281796976E-002', '0'])
solve('linear_solver_yoffset', 773, 'yoffset_wing_5sect', [10, 0, 0, 1], None, ['-1.69234613071813E-003', '0', '-1.51576434068321E-001', '0', '8.92791526871623E-003', '0'])
solve('linear_solver_tapered_controls', 888, 'tapered_control_5sect', [10, 0, 0, 1], [5, 0, 0], ['-3.93879262490376E-003', '0', '-1.75579916601760E-001', '-3.93486689403467E-002', '1.86556083110728E-002', '8.93138706195071E-004'])
solve('linear_solver_parasitic_drag', 958, S, [10, 2, 3, 1], [5, 0, 0], ['-7.95414652336687E-003', '-4.16606101317243E-004', '-1.39324456257965E-004', '3.46531541326986E-005', '5.57297825031859E-005', '-4.69497392909465E-005'], part='r_viscous')
out.append('''(** test/models/test_llmodel.py, line 814 *)
Definition rolling : option (aero_state Z) :=
  Some (MkAero [("V_mag", nint 10); ("alpha", nint 0); ("beta", nint 0); ("rho", nint 1);
                ("roll_rate", ndec 1 1); ("pitch_rate", nint 0); ("yaw_rate", nint 0)] None).
''')
ex('linear_solver_roll_rate', 'test/models/test_llmodel.py, line 814',
   '\n  agrees 11 (solve_at %s_json rolling None) (fun r => six (r_inviscid r))\n    %s' % (S, lst(scaled(['-0.00017422282851392923', '0', '-0.17562015983742105', '-0.023501253162496294', '0.018643763169761726', '-0.00035428728093468378'], 400, 8))))
vz = ['0.390211303259031', '0.317557050458495', '0.2', '0.082442949541505', '0.009788696740969']
vz = vz + ['-' + x for x in reversed(vz)]
ex('roll_rate_velocities', 'test/models/test_llmodel.py, line 858',
   '\n  agrees 14 (rlet pl := load %s_json in state_after pl rolling None) (fun s => coords (l_v s))\n    %s' % (S, lst(sum([['-10', '0', z] for z in vz], []))))
rows = [['1.00', '-10.2', '0.00', '-0.30'], ['1.05', '-10.6', '0.02', '-0.32'], ['1.12', '-10.1', '0.02', '-0.32'], ['1.30', '-10.2', '0.04', '-0.33'], ['1.01', '-10.3', '0.02', '-0.31'], ['1.04', '-10.3', '0.02', '-0.31'], ['1.02', '-10.6', '0.01', '-0.31'], ['1.05', '-10.6', '0.05', '-0.34'], ['1.15', '-10.3', '0.02', '-0.32'], ['1.05', '-10.4', '0.02', '-0.32']]
out.append('(** test/models/test_llmodel.py, line 931 *)\nDefinition local_rows : list (Z * vec3 Z) :=\n  [' + ';\n   '.join('(%s, V3 (%s) (%s) (%s))' % tuple(d(x) for x in r) for r in rows) + '].\n')
ex('local_velocity_input', 'test/models/test_llmodel.py, line 931',
   '\n  agrees 12 (rlet pl := load %s_json in state_after pl (Some (MkAero [] (Some local_rows))) None)\n    (fun s => l_rho s ++ coords (l_v s) ++ coords [l_uinf s])%%list\n    %s' % (S, lst([r[0] for r in rows] + sum([r[1:] for r in rows], []) + ['-0.999526990162502', '0.002122547662507', '-0.03068046166715'])))
def grid(name, line, js, pick, vals, tol=13, cos='true'):
    ex(name, 'test/models/test_llgrid.py, line %s' % line, '\n  agrees %d (grid_of %s %s_json) (%s)\n    %s' % (tol, cos, js, pick, lst(vals)))
sym = lambda l: l + l[::-1]
grid('integral_of_chord_squared', 94, 'dihedral_sweep_wing', 'column (@s_ic2 Z)', sym(['3.819660112501050975e-01', '1', '1.236067977499789805e+00', '1', '3.819660112501050975e-01']))
lin = ['-3.6', '-2.8', '-2', '-1.2', '-0.4', '0.4', '1.2', '2', '2.8', '3.6']
y3 = lambda l: sum([['0', y, '0'] for y in l], [])
grid('grid_position_linear', 180, S, 'vectors (@s_r Z)', y3(lin), cos='false')
grid('grid_corner_1_linear', 180, S, 'vectors (@s_r1 Z)', y3(['-4', '-3.2', '-2.4', '-1.6', '-0.8', '0', '0.8', '1.6', '2.4', '3.2']), cos='false')
grid('grid_corner_2_linear', 180, S, 'vectors (@s_r2 Z)', y3(['-3.2', '-2.4', '-1.6', '-0.8', '0', '0.8', '1.6', '2.4', '3.2', '4']), cos='false')
cp = ['0.12235870926211616', '1.0305368692688170', '2.5', '3.9694631307311816', '4.8776412907378832']
grid('grid_position_swept', '145 (numbers of line 160)', 'swept_wing_5sect', 'vectors (@s_r Z)',
     sum([['-' + y, '-' + y, '0'] for y in cp[::-1]] + [['-' + y, y, '0'] for y in cp], []))
grid('grid_linear_interp', 198, 'aerodynamic_twist_wing_5sect', 'column (fun s => tm (s_cla s))', sym(['6.28110521889743', '6.26555720879812', '6.24040000000000', '6.21524279120188', '6.19969478110257']))
grid('grid_lift_slope', 210, S, 'column (fun s => tm (s_cla s))', ['6.1976'] * 10)
grid('grid_area', 219, S, 'column (@s_dS Z)', sym(['0.381966011250105', '1', '1.236067977499790', '1', '0.381966011250105']))
grid('grid_swept_area', 229, 'swept_wing_5sect', 'column (@s_dS Z)', sym(['0.954915028125264', '2.5', '3.090169943749470', '2.5', '0.954915028125263']))
grid('grid_tapered_area', 241, 'tapered_wing_5sect', 'column (@s_dS Z)', sym(['0.200101632734447', '0.610245751406263', '0.927050983124842', '0.889754248593737', '0.372847384140710']))
c = ['0.5', '0.547745751406263', '0.672745751406263', '0.827254248593737', '0.952254248593737', '1']
grid('grid_tapered_chord_1', 253, 'tapered_wing_5sect', 'column (@s_c1 Z)', c[:5] + c[:0:-1])
grid('grid_tapered_chord_2', 253, 'tapered_wing_5sect', 'column (@s_c2 Z)', c[1:] + c[-2::-1])
for n, v in (('ua', ['-1', '0', '0']), ('un', ['0', '0', '-1']), ('us', ['0', '-1', '0'])):
    grid('grid_normals_' + n, 271, S, 'vectors (@s_%s Z)' % n, v * 10)
for n, v in (('ua', ['-1', '0', '0']), ('un', ['0', '-1', '0']), ('us', ['0', '0', '1'])):
    grid('grid_vertical_' + n, 288, 'vertical_wing_5sect', 'vectors (@s_%s Z)' % n, v * 5)
yo = ['-4.402113032590307284e+00', '-3.675570504584945830e+00', '-2.5', '-1.324429495415053726e+00', '-5.978869674096929376e-01']
grid('grid_yoffset', 305, 'yoffset_wing_5sect', 'vectors (@s_r Z)', y3(yo + [x[1:] for x in yo[::-1]]))
at = lambda x: ['0', x] + ['0'] * 6 + [x.lstrip('!'), '0']
grid('grid_flap_effectiveness', 323, S, 'column (@s_flap_eff Z)', at('0.5418715959841'))
grid('grid_mix_aileron', 333, S, 'column (@s_mix_a Z)', ['0', '-1'] + ['0'] * 6 + ['1', '0'])
grid('grid_mix_elevator', 333, S, 'column (@s_mix_e Z)', at('1'))
grid('grid_mix_rudder', 333, S, 'column (@s_mix_r Z)', ['0'] * 10)
grid('grid_mix_flap', 333, S, 'column (@s_mix_f Z)', ['0'] * 10)
grid('grid_cm_delta', 351, S, 'column (@s_cmd Z)', at('-0.649519052838329'))
out.append('''(** test/geometry/test_airplane.py, lines 33-39 *)
Example number_of_sections :
  (rlet pl := load single_wing_json in Ok (num_sections pl, List.length (wingsegments pl))) = Ok (80, 2)%nat.
Proof. vm_compute. reflexivity. Qed.

(** test/geometry/test_airplane.py, line 42 *)
Definition tips (name : string) : res (list Z) :=
  rlet pl := load multisegment_wing_json in
  match find (fun s => String.eqb (sg_name s) name) (wingsegments pl) with
  | Some s => rlet l := seg_position 10 pl s "left_tip" in
              rlet r := seg_position 10 pl s "right_tip" in
              Ok (coords [l; r])
  | None => Err KeyError
  end.
''')
root = [D('0.5'), D(0), D('-0.1')]
add = lambda a, b: [x + D(y) for x, y in zip(a, b)]
fr = add(root, ['-0.3499546541037', '3.9392310120488', '-0.69459271066772'])
fl = add(root, ['-0.3499546541037', '-3.9392310120488', '-0.69459271066772'])
sr = add(fr, ['-0.3499546541037', '4', '0']); sl = add(fl, ['-0.3499546541037', '-4', '0'])
for n, a, b in (('left_outer', sl, fl), ('left_inner', fl, root), ('right_inner', root, fr), ('right_outer', fr, sr)):
    ex('multisegment_' + n, 'test/geometry/test_airplane.py, line 42', '\n  agrees 12 (tips "%s") (fun l => l)\n    %s' % (n, lst(a + b)))
out.append('''(** The test files without "is_main" cannot be loaded any more. *)
Example old_files_do_not_load :
  map from_file [straight_wing_5sect_json; straight_simple_plane_json; single_wing_json; tapered_wing_5sect_json]
  = [Err KeyError; Err KeyError; Err KeyError; Err KeyError].
Proof. vm_compute. reflexivity. Qed.
''')
open('/verif/rocq/theories/Conformance.v', 'w').write('\n'.join(out))
