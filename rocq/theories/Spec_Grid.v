(** Vocabulary for the properties of the section grid (C01-C08, C13-C15).
    Independent of the functions that model the code: only the data records, the
    vector operations and elementary arithmetic are used. *)
From Coq Require Import Reals String Arith List.
From Verif Require Import Base Num Geometry Grid.
Import ListNotations.
Set Implicit Arguments.

(** Index blocks of the given sizes laid out one after the other. *)
Fixpoint consecutive (start : nat) (sizes : list nat) : list (nat * nat) :=
  match sizes with
  | [] => []
  | n :: r => (start, start + n) :: consecutive (start + n) r
  end.

(** The sections lying in the [k]-th index block of a grid. *)
Definition block_of {T} (g : grid T) (k : nat) : list (section T) :=
  match nth_error (g_slices g) k with
  | Some (a, b) => firstn (b - a) (skipn a (g_sections g))
  | None => []
  end.

(** The names of the segments of a wing called [name], in order. *)
Definition segment_names (name side : string) : list string :=
  (if String.eqb side "both" then ["left_" ++ name; "right_" ++ name]
   else if String.eqb side "right" then ["right_" ++ name]
   else ["left_" ++ name])%string.

Local Open Scope R_scope.

(** The point at fraction [t] of the way from [L] to [R']. *)
Definition point_at (L R' : vec3 R) (t : R) : vec3 R :=
  vadd L (vscale t (vsub R' L)).

(** A list of sections partitions the straight line from [L] to [R']. *)
Record partitions (L R' : vec3 R) (block : list (section R)) : Prop := {
  part_first : forall s, nth_error block 0 = Some s -> s_r1 s = L /\ s_sp1 s = 0;
  part_last : forall s, nth_error block (List.length block - 1) = Some s ->
                        s_r2 s = R' /\ s_sp2 s = 1;
  part_chain : forall i s s', nth_error block i = Some s -> nth_error block (S i) = Some s' ->
                              s_r2 s = s_r1 s' /\ s_sp2 s = s_sp1 s';
  part_inside : forall s, In s block ->
                  (0 <= s_sp1 s /\ s_sp1 s < s_sp s /\ s_sp s < s_sp2 s /\ s_sp2 s <= 1) /\
                  s_r1 s = point_at L R' (s_sp1 s) /\
                  s_r s = point_at L R' (s_sp s) /\
                  s_r2 s = point_at L R' (s_sp2 s)
}.

(** Planform area and integral of the squared chord of a trapezoidal panel. *)
Definition trapezoid_area (semispan root tip : R) : R := semispan * (root + tip) / 2.
Definition trapezoid_chord2 (semispan root tip : R) : R :=
  semispan * (root * root + root * tip + tip * tip) / 3.

Definition total {A} (f : A -> R) (l : list A) : R := fold_right (fun x s => f x + s) 0 l.

(** Right-handed orthonormal frame (axial, normal, spanwise). *)
Record orthonormal_frame (a n s : vec3 R) : Prop := {
  fr_a : vdot a a = 1; fr_n : vdot n n = 1; fr_s : vdot s s = 1;
  fr_an : vdot a n = 0; fr_as : vdot a s = 0; fr_ns : vdot n s = 0;
  fr_cross : s = vcross a n
}.

(** Mirror image in the x-z plane. *)
Definition mirror (v : vec3 R) : vec3 R := V3 (vx v) (- vy v) (vz v).
Definition swap_tri (t : tri R) : tri R := Tri (tm t) (tr t) (tl t).

(** Mirror image of a section.  The corners, and the airfoils at the ends of the
    segment, change places; the spanwise direction is a pseudo-vector (a x n), so
    it changes sign in addition; aileron and rudder mixing change sign. *)
Definition mirror_section (name : string) (s : section R) : section R :=
  MkSection name (1 - s_sp s) (1 - s_sp2 s) (1 - s_sp1 s)
            (mirror (s_r s)) (mirror (s_r2 s)) (mirror (s_r1 s))
            (s_c s) (s_c2 s) (s_c1 s) (s_dS s)
            (swap_tri (s_cla s)) (swap_tri (s_al0 s)) (swap_tri (s_cma s)) (swap_tri (s_cml0 s))
            (swap_tri (s_cd0 s)) (swap_tri (s_cd1 s)) (swap_tri (s_cd2 s)) (swap_tri (s_clmax s))
            (s_washout s) (s_mount s) (s_dihedral s) (s_sweep s)
            (mirror (s_ua s)) (mirror (s_un s)) (vopp (mirror (s_us s)))
            (s_flap_eff s) (- s_mix_a s) (s_mix_e s) (- s_mix_r s) (s_mix_f s)
            (s_cmd s) (s_ic2 s).

(** Fraction of the semispan, measured from the root, of a point at spanwise
    parameter [s] (which runs from the left to the right end of the segment). *)
Definition from_root (side : seg_side) (s : R) : R :=
  match side with SRight => s | SLeft => 1 - s end.

(** Linear variation from [root] to [tip]. *)
Definition between (root tip t : R) : R := (1 - t) * root + t * tip.

(** The control point at fraction [t] from the root lies on the control surface. *)
Definition covered (c : control_surface R) (t : R) : Prop :=
  cs_span_root c < t < cs_span_tip c.

(** Ratio of the flap chord to the local chord at fraction [t] from the root. *)
Definition flap_chord (c : control_surface R) (t : R) : R :=
  between (cs_chord_root c) (cs_chord_tip c) ((t - cs_span_root c) / (cs_span_tip c - cs_span_root c)).

(** Thin-airfoil flap effectiveness and moment slope of a flap of chord ratio [cf]
    with hinge angle theta, cos(theta) = 2 cf - 1, and the empirical hinge
    efficiency fit. *)
Definition hinge_angle (cf : R) : R := acos (2 * cf - 1).
Definition ideal_effectiveness (cf : R) : R :=
  1 - (hinge_angle cf - sin (hinge_angle cf)) / PI.
Definition hinge_efficiency (cf : R) : R :=
  39598 / 10000 * atan ((cf + 6527 / 1000000) * (892574 / 10000) + 4898015 / 1000000) - 518786 / 100000.
Definition flap_moment_slope (cf : R) : R :=
  (sin (2 * hinge_angle cf) - 2 * sin (hinge_angle cf)) / 4.

(** Mixing of a control surface for one control; absent controls count zero. *)
Definition mix_of (c : control_surface R) (control : string) : R :=
  match dget (cs_mix c) control with Some x => x | None => 0 end.
Definition side_sign (side : seg_side) : R := match side with SRight => 1 | SLeft => -1 end.

(** The same segment with its control surface (un)sealed. *)
Definition set_sealed {T} (b : bool) (s : segment T) : segment T :=
  let c := sg_control s in
  MkSegment (sg_name s) (sg_side s) (sg_parent s) (sg_connect_at s) (sg_delta s) (sg_is_main s)
            (sg_yoffset s) (sg_span s) (sg_root_chord s) (sg_tip_chord s) (sg_sweep s) (sg_dihedral s)
            (sg_mount s) (sg_washout s) (sg_root_af s) (sg_tip_af s)
            (MkCS (cs_span_root c) (cs_span_tip c) (cs_chord_root c) (cs_chord_tip c) b (cs_mix c))
            (sg_num s).
