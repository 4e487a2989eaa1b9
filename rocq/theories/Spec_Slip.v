(** Vocabulary for the velocity field behind a propeller (C69): profile of the axial and of
    the tangential velocity over the radius.  Independent of the functions that model
    propmodel.py. *)
From Coq Require Import Reals String List.
From Verif Require Import Base Num Geometry Grid LLModel PropModel Spec_Grid Spec_LL Spec_Prop.
Import ListNotations.
Local Open Scope R_scope.

(** *** Position behind a disk at [pos] with axis [f] *)
Definition behind (pos f pt : vec3 R) : R := - vdot (vsub pt pos) f.
Definition off_axis (pos f pt : vec3 R) : vec3 R := vsub (vsub pt pos) (vscale (vdot (vsub pt pos) f) f).
(** The unit vector perpendicular to the axis and to the way from the axis to the point, in
    the direction of a right-handed rotation about the axis. *)
Definition around (pos f pt e : vec3 R) : Prop :=
  vdot e e = 1 /\ vdot e f = 0 /\ vdot e (off_axis pos f pt) = 0 /\ 0 < vdot (vcross f (off_axis pos f pt)) e.

(** *** [y] is the height at [x] of the broken line through [pts], 0 outside its range *)
Definition on_profile (pts : list (R * R)) (x y : R) : Prop :=
  (forall i p, nth_error pts i = Some p -> x = fst p -> y = snd p) /\
  (forall i p q, nth_error pts i = Some p -> nth_error pts (S i) = Some q -> fst p <= x <= fst q ->
     (y - snd p) * (fst q - fst p) = (snd q - snd p) * (x - fst p)) /\
  ((forall p, In p pts -> x < fst p) -> y = 0) /\ ((forall p, In p pts -> fst p < x) -> y = 0).

(** *** Swirl: radii [rs] and tangential velocities [vt] in the disk, [rp] and [w] in the
    slipstream.  From node [m] outwards the angular momentum is twice that in the disk;
    inside the air turns like a solid body. *)
Definition swirling (m : nat) (rs vt rp w : list R) : Prop :=
  List.length w = List.length rp /\
  (forall i r v r' v', (m <= i)%nat -> nth_error rs i = Some r -> nth_error vt i = Some v ->
     nth_error rp i = Some r' -> nth_error w i = Some v' -> r' * v' = 2 * (r * v)) /\
  (forall i r' v' r0 v0, (i < m)%nat -> nth_error rp i = Some r' -> nth_error w i = Some v' ->
     nth_error rp m = Some r0 -> nth_error w m = Some v0 -> v' * r0 = v0 * r').

(** A disk with at least one node and a hub smaller than 0.999 diameters *)
Definition has_disk (p : prop R) : Prop :=
  (0 < pr_nodes p)%nat /\ 0 < pr_hub p < 999 / 1000 * pr_diameter p.

(** *** The velocity [v] that propeller [p] adds at the point [pt] at airspeed [V], from the
    rows of its blade distributions *)
Definition slipstream_velocity (p : prop R) (V : R) (rows : list (blade_row (T := R))) (pt v : vec3 R) : Prop :=
  let pos := pr_position p in
  let f := propeller_axis (pr_elevation p) (pr_heading p) in
  let s := behind pos f pt in
  let kd := 1 + s / sqrt (s ^ 2 + (pr_diameter p / 2) ^ 2) in
  (~ in_streamtube pos f (pr_diameter p) pt -> v = vzero) /\
  (in_streamtube pos f (pr_diameter p) pt -> 0 < vnorm (off_axis pos f pt) ->
   exists b0 rest rp w a t e,
     rows = b0 :: rest /\
     (* radii of the stream surfaces through the nodes *)
     tube V kd (b_r b0) (b_r b0) (b_Vx b0) (map (fun b => (b_r b, b_Vx b)) rest) rp /\
     swirling (Nat.div (pr_nodes p) 10) (map (fun b => b_r b) rows) (map (fun b => b_Vt b) rows) (b_r b0 :: rp) w /\
     on_profile (combine (b_r b0 :: rp) (map (fun b => kd * b_Vx b) rows)) (vnorm (off_axis pos f pt)) a /\
     on_profile (combine (b_r b0 :: rp) w) (vnorm (off_axis pos f pt)) t /\
     around pos f pt e /\
     v = vadd (vscale (rot_dir (pr_rot_dir p) * t) e) (vscale a (vopp f))).
