(** Vocabulary for the propeller properties (C48-C55).  Independent of the functions
    that model propmodel.py and propssolver.py: data records, vector operations. *)
From Coq Require Import Reals String Bool Arith List.
From Verif Require Import Base Num RVec Geometry Grid LLModel PropModel Spec_Grid Spec_LL.
Import ListNotations.
Set Implicit Arguments.

(** *** Prop state dictionaries *)

(** Keys a propeller reads from its state. *)
Definition prop_keys : list string := ["J"; "rot_per_sec"; "brake_power"; "electric_throttle"]%string.
(** The two settings mean the same to a propeller: both omitted or empty (a number 0
    counts as empty), or dictionaries that agree on the keys above. *)
Definition empty_setting {T} {N : num_ops T} (v : option (pval T)) : Prop :=
  match v with
  | None => True
  | Some (PNum x) => ntruthy x = false
  | Some (PDict l) => l = []
  end.
Definition same_setting {T} {N : num_ops T} (a b : option (pval T)) : Prop :=
  a = b \/ (empty_setting a /\ empty_setting b) \/
  exists l l', a = Some (PDict l) /\ b = Some (PDict l') /\ l <> [] /\ l' <> [] /\
    forall key, In key prop_keys -> dget l key = dget l' key.
(** The setting of the propeller called [name]: the entry under its own name if there
    is one, otherwise everything. *)
Definition setting_of {T} (ps : option (dict (pval T))) (name : string) : option (pval T) :=
  match ps with
  | None => None
  | Some d => match dget d name with Some v => Some v | None => Some (PDict d) end
  end.

Local Open Scope R_scope.

(** *** Forces of one propeller *)

(** The propeller axis for elevation and heading in degrees. *)
Definition propeller_axis (elevation heading : R) : vec3 R :=
  let e := degrees elevation in let h := degrees heading in
  V3 (cos e * cos h) (cos e * sin h) (- sin e).
(** [e] is the unit vector along the component of [v] perpendicular to [f]. *)
Definition along_disk (v f e : vec3 R) : Prop :=
  vdot e e = 1 /\ vdot e f = 0 /\
  exists m, 0 < m /\ v = vadd (vscale (vdot v f) f) (vscale m e).
(** Angle between two unit vectors. *)
Definition angle_between (a b : vec3 R) (x : R) : Prop := 0 <= x <= PI /\ cos x = vdot a b.

(** *** Slipstream *)

(** [pt] lies behind the disk of diameter [d] at [pos] with axis [f] and within one
    radius of the axis. *)
Definition in_streamtube (pos f : vec3 R) (d : R) (pt : vec3 R) : Prop :=
  vdot (vsub pt pos) f < 0 /\ vnorm (vcross (vsub pt pos) f) <= d / 2.
(** Twice the mean axial velocity between two stations: freestream plus [k] times the
    induced one. *)
Definition mean_axial2 (Vinf k v0 v1 : R) : R := 2 * Vinf + k * (v0 + v1).

(** [1], [-1] or [0] *)
Definition sign (x : R) : R := if Rlt_dec 0 x then 1 else if Rlt_dec x 0 then -1 else 0.

(** *** Histories *)

(** One call of the propeller solver: centre of gravity at the time, aero state, prop
    state. *)
Record prop_call (T : Type) : Type := MkPCall {
  pc_cg : vec3 T; pc_aero : option (aero_state T); pc_prop : option (dict (pval T))
}.
(** The propellers after any sequence of calls, failing ones included. *)
Definition props_after {T} {N : num_ops T} (E : penv T) (wing_points : option nat) (gs : list (pgeom T))
           (h : list (prop_call T)) : list (pstate T) :=
  fold_left (fun ss c => snd (props_solve E (pc_cg c) wing_points (pc_aero c) (pc_prop c) gs ss)) h
            (map init_pstate gs).

(** The same propeller with the rotation setting [v]. *)
Definition with_rotation {T} (v : pyval T) (p : prop T) : prop T :=
  MkProp (pr_name p) (pr_position p) (pr_elevation p) (pr_heading p) (pr_nodes p) (pr_diameter p) (pr_hub p)
         (pr_blades p) v (pr_pitch p) (pr_chord p) (pr_motor p) (pr_airfoils p).

(** Settings refused at airspeed [V], with the exception raised. *)
Definition refused (V : R) (has_motor : Prop) (l : dict (pval R)) (e : exn) : Prop :=
  (e = RuntimeError /\ dget l "rot_per_sec" = None /\
   exists j, dget l "J" = Some (PNum j) /\ (j = 0 \/ V = 0)) \/
  (e = RuntimeError /\ l <> [] /\ forall key, In key prop_keys -> dget l key = None) \/
  (e = ZeroDivisionError /\ dget l "J" = None /\ dget l "rot_per_sec" = Some (PNum 0)) \/
  (e = RuntimeError /\ dget l "J" = None /\ dget l "rot_per_sec" = None /\ dget l "brake_power" = None /\
   (exists t, dget l "electric_throttle" = Some (PNum t)) /\ ~ has_motor).

(** [tube Vinf kd r0 rp0 v0 l rps]: starting from a station at radius [r0] in the disk
    and [rp0] in the slipstream with induced axial velocity [v0], the stations [l]
    (radius in the disk, induced axial velocity) have the radii [rps] in the slipstream:
    increasing, not larger than in the disk, and with the same flow between neighbours,
    the induced velocity having grown by the factor [kd]. *)
Inductive tube (Vinf kd : R) : R -> R -> R -> list (R * R) -> list R -> Prop :=
| tube_nil r0 rp0 v0 : tube Vinf kd r0 rp0 v0 [] []
| tube_cons r0 rp0 v0 r v l rp lp :
    rp0 < rp -> 0 <= rp -> rp <= r ->
    (rp ^ 2 - rp0 ^ 2) * mean_axial2 Vinf kd v0 v = (r ^ 2 - r0 ^ 2) * mean_axial2 Vinf 1 v0 v ->
    tube Vinf kd r rp v l lp -> tube Vinf kd r0 rp0 v0 ((r, v) :: l) (rp :: lp).


(** *** Blade pitch *)

(** A Python number. *)
Definition number (v : pyval R) (x : R) : Prop := v = VNum x \/ exists z, v = VInt z /\ x = IZR z.
(** [chord_angle table p z x]: the chord line at relative radius [z] makes the angle [x]
    with the disk: from the ratio of geometric pitch to diameter (1/2 by default), from
    the pitch itself, or in degrees from a data file. *)
Inductive chord_angle (table : string -> res (R -> R)) (p : prop R) (z : R) : R -> Prop :=
| CA_default : dget (pr_pitch p) "type" = Some (VStr "default") ->
    chord_angle table p z (atan ((1 / 2) / (PI * z)))
| CA_ratio v K : dget (pr_pitch p) "type" = Some (VStr "ratio") -> dget (pr_pitch p) "value" = Some v ->
    number v K -> chord_angle table p z (atan (K / (PI * z)))
| CA_value v x : dget (pr_pitch p) "type" = Some (VStr "value") -> dget (pr_pitch p) "value" = Some v ->
    number v x -> chord_angle table p z (atan (x / pr_diameter p / (PI * z)))
| CA_file name f : dget (pr_pitch p) "type" = Some (VStr "from_file") ->
    dget (pr_pitch p) "filename" = Some (VStr name) -> table name = Ok f ->
    - (PI / 2) < degrees (f z) < PI / 2 ->
    chord_angle table p z (degrees (f z)).
(** Increment added to all blade angles. *)
Inductive increment (p : prop R) : R -> Prop :=
| IN_none : dget (pr_pitch p) "pitch_increment" = None -> increment p 0
| IN_some v x : dget (pr_pitch p) "pitch_increment" = Some v -> number v x -> increment p (degrees x).
