(** The law of Biot and Savart for a horseshoe vortex, as integrals (C22). *)
From Coq Require Import Reals List.
From Coquelicot Require Import Coquelicot.
From Verif Require Import Base Num RVec Geometry Grid LLModel Spec_Grid Spec_LL.
Local Open Scope R_scope.

(** The vector [w] is the integral of the vector function [f] over [0,1] / [0,oo). *)
Definition integral01 (f : R -> vec3 R) (w : vec3 R) : Prop :=
  is_RInt (fun t => vx (f t)) 0 1 (vx w) /\ is_RInt (fun t => vy (f t)) 0 1 (vy w) /\
  is_RInt (fun t => vz (f t)) 0 1 (vz w).
Definition integral0oo (f : R -> vec3 R) (w : vec3 R) : Prop :=
  let I := is_RInt_gen (V := R_NormedModule) in
  I (fun t => vx (f t)) (at_point 0) (Rbar_locally p_infty) (vx w) /\
  I (fun t => vy (f t)) (at_point 0) (Rbar_locally p_infty) (vy w) /\
  I (fun t => vz (f t)) (at_point 0) (Rbar_locally p_infty) (vz w).
(** Velocity per unit strength and length induced at [p] by a vortex filament
    element at [q] with direction [d]:  d x (p - q) / (4 pi |p - q|^3). *)
Definition element (p q d : vec3 R) : vec3 R :=
  vscale (/ (4 * PI * vnorm (vsub p q) ^ 3)) (vcross d (vsub p q)).
(** Straight filament from [a] to [b]; half-line from [a] in direction [u]. *)
Definition filament (p a b w : vec3 R) : Prop :=
  integral01 (fun t => element p (point_at a b t) (vsub b a)) w.
Definition half_line (p a u w : vec3 R) : Prop :=
  integral0oo (fun t => element p (vadd a (vscale t u)) u) w.
(** Horseshoe vortex: in from downstream infinity to [a], along the bound segment to
    [b], back to infinity.  [own]: the point lies on the bound segment itself, whose
    contribution is left out. *)
Definition horseshoe (own : bool) (u p a b w : vec3 R) : Prop :=
  exists wa wb wab, half_line p a u wa /\ half_line p b u wb /\
    (if own then wab = vzero else filament p a b wab) /\
    w = vadd (vsub wb wa) wab.
Definition off_segment (p a b : vec3 R) : Prop := forall t, 0 <= t <= 1 -> p <> point_at a b t.
Definition off_half_line (p a u : vec3 R) : Prop := forall t, 0 <= t -> p <> vadd a (vscale t u).


(** No control point lies on a trailing leg, nor on the bound segment of another
    section: the velocities below are finite. *)
Definition clear_of_vortices (u : vec3 R) (secs : list (section R)) : Prop :=
  forall i j si sj, nth_error secs i = Some si -> nth_error secs j = Some sj ->
    off_half_line (s_r si) (s_r1 sj) u /\ off_half_line (s_r si) (s_r2 sj) u /\
    (i <> j -> off_segment (s_r si) (s_r1 sj) (s_r2 sj)).

(** The sections of the grid [g] in operation with vortex strengths [gam] in the local
    flow [v], [rho] and freestream direction [u], under the control state [c]: each
    load's induced velocity is the sum over all horseshoe vortices of their strength
    times their Biot-Savart velocity. *)
Record in_operation (g : grid R) (u : vec3 R) (v : list (vec3 R)) (rho : list R) (c : dict R)
       (gam : list R) (loads : list load) : Prop := {
  io_sec : map ld_sec loads = g_sections g;
  io_v : map ld_v loads = v;
  io_rho : map ld_rho loads = rho;
  io_cmd : map ld_cmd loads = map (commanded c) (g_sections g);
  io_gamma : map ld_gamma loads = gam;
  io_w : forall i x, nth_error loads i = Some x ->
    exists ws, length ws = length loads /\
      ld_w x = vtotal (fun p => vscale (ld_gamma (fst p)) (snd p)) (combine loads ws) /\
      forall j y w, nth_error loads j = Some y -> nth_error ws j = Some w ->
        horseshoe (Nat.eqb i j) u (s_r (ld_sec x)) (s_r1 (ld_sec y)) (s_r2 (ld_sec y)) w
}.
