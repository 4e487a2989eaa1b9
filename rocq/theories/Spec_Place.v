(** Where an airplane is drawn does not matter (C75): the same airplane with every part and the
    centre of gravity displaced by [x]. *)
From Coq Require Import Reals String Bool List.
From Verif Require Import Base Num RVec Geometry LLModel PropModel Spec_Geom MU.
Import ListNotations.
Local Open Scope R_scope.

(** *** The airplane displaced by [x]: the wings that are attached to the airplane (the others
    follow them), the propellers and the centre of gravity *)
Definition segment_at (x : vec3 R) (s : segment R) : segment R :=
  match sg_parent s with PWing _ => s | _ => move_segment x s end.
Definition wing_at (x : vec3 R) (w : wing R) : wing R :=
  MkWing (w_name w) (w_side w) (option_map (segment_at x) (w_left w)) (option_map (segment_at x) (w_right w)).
Definition prop_at (x : vec3 R) (p : prop R) : prop R :=
  MkProp (pr_name p) (vadd (pr_position p) x) (pr_elevation p) (pr_heading p) (pr_nodes p) (pr_diameter p) (pr_hub p)
         (pr_blades p) (pr_rot_dir p) (pr_pitch p) (pr_chord p) (pr_motor p) (pr_airfoils p).
Definition plane_at (x : vec3 R) (pl : airplane R) : airplane R :=
  MkAirplane (a_name pl) (a_wings pl) (map (wing_at x) (a_store pl))
             (map (fun p => (fst p, prop_at x (snd p))) (a_props pl)) (vadd (a_cg pl) x)
             (a_long_ref pl) (a_lat_ref pl) (a_position pl) (a_units pl).

(** *** What is reported as a position moves with the airplane *)
(** a line of the distributions table: the control point *)
Definition row_at (x : vec3 R) (r : wing_row R) : wing_row R :=
  let d := wr_row r in
  MkWRow (MkDist (d_name d) (vadd (d_cp d) x) (d_chord d) (d_twist d) (d_dihedral d) (d_sweep d) (d_area d)
                 (d_alpha d) (d_force d) (d_cl d) (d_cm d) (d_cd d) (d_al0 d)) (wr_cl_ref r).
Definition table_at (x : vec3 R) (t : list (wing_row R) * list (@blade_row R)) := (map (row_at x) (fst t), snd t).
(** the aerodynamic centre: always in the plane y = 0 *)
Definition center_at (x v : vec3 R) : vec3 R := V3 (vx v + vx x) (vy v) (vz v + vz x).
(** [answer f p q]: [q] leaves the same world as [p] and raises the same exception or returns
    the answer of [p] under [f] *)
Definition answer_under {W A} (f : A -> A) (p q : res A * W) : Prop :=
  q = (match fst p with Ok a => Ok (f a) | Err e => Err e end, snd p).
