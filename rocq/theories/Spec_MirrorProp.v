(** Specification vocabulary for mirrored flight with propellers (C79, C80, C81). *)
From Coq Require Import Reals String List Permutation.
From Verif Require Import Base Num Geometry Api Grid LLModel PropModel Spec_Grid Spec_Geom Spec_LL Spec_Mirror MU.
Import ListNotations.
Set Implicit Arguments.
Local Open Scope string_scope.
Local Open Scope R_scope.

(** *** The airplanes *)

(** A propeller seen in the mirror: placed and pointed there, turning the other way. *)
Record mirrored_prop (p p' : prop R) : Prop := {
  mp_position : pr_position p' = mirror (pr_position p);
  mp_elevation : pr_elevation p' = pr_elevation p;
  mp_heading : pr_heading p' = - pr_heading p;
  mp_turns : rot_dir (pr_rot_dir p') = - rot_dir (pr_rot_dir p);
  mp_nodes : pr_nodes p' = pr_nodes p;
  mp_diameters : pr_diameter p' = pr_diameter p /\ pr_hub p' = pr_hub p;
  mp_blades : pr_blades p' = pr_blades p;
  mp_shape : pr_pitch p' = pr_pitch p /\ pr_chord p' = pr_chord p /\ pr_airfoils p' = pr_airfoils p;
  mp_motor : pr_motor p' = pr_motor p
}.
(** An airplane whose wings are their own mirror image (see [mirror_symmetric]) seen in the
    mirror: the propellers and the centre of gravity change sides. *)
Record mirrored_airplane (pl pl' : airplane R) : Prop := {
  ma_wings : a_wings pl' = a_wings pl /\ a_store pl' = a_store pl /\ a_position pl' = a_position pl;
  ma_lengths : a_lat_ref pl' = a_lat_ref pl /\ a_long_ref pl' = a_long_ref pl;
  ma_units : a_units pl' = a_units pl;
  ma_cg : a_cg pl' = mirror (a_cg pl);
  ma_props : Forall2 (fun e e' => fst e' = fst e /\ pr_name (snd e') = pr_name (snd e) /\ mirrored_prop (snd e) (snd e'))
                     (a_props pl) (a_props pl')
}.

(** *** The calls: solve with the given dictionaries aero_state, control_state, prop_state *)
Record solve_args : Type := MkArgs {
  sa_aero : aero_state R;
  sa_ctl : option (dict R);
  sa_prop : option (dict (pval R))
}.
(** what a sequence of calls on one object returns or raises *)
Fixpoint solve_all (E : menv R) (X : machup R) (s : mstate R) (calls : list solve_args) : list (res (fm R)) :=
  match calls with
  | [] => []
  | i :: rest =>
      let (r, w) := mu_solve E X (sa_prop i) None (MkW (Some (sa_aero i)) (sa_ctl i) s [] []) in
      r :: solve_all E X (w_model w) rest
  end.
(** The same call seen in the mirror: mirrored flow and controls (or no control_state), and
    the same propeller settings. *)
Record mirrored_args (i i' : solve_args) : Prop := {
  mi_given : an (sa_aero i) <> [] /\ an (sa_aero i') <> [];
  mi_flow : mirrored_flow (sa_aero i) (sa_aero i');
  mi_ctl : match sa_ctl i, sa_ctl i' with
           | None, None => True
           | Some c, Some c' => c <> [] /\ c' <> [] /\ mirrored_controls c c'
           | _, _ => False
           end;
  mi_prop : sa_prop i' = sa_prop i
}.
(** The same exception, or forces and moments seen in the mirror. *)
Definition mirrored_outcome (r r' : res (fm R)) : Prop :=
  match r, r' with
  | Ok f, Ok f' => mirrored_forces f f'
  | Err e, Err e' => e' = e
  | _, _ => False
  end.

(** *** The order of the propellers (C80) *)
Record reordered_props (pl pl' : airplane R) : Prop := {
  ro_wings : a_wings pl' = a_wings pl /\ a_store pl' = a_store pl /\ a_position pl' = a_position pl;
  ro_lengths : a_lat_ref pl' = a_lat_ref pl /\ a_long_ref pl' = a_long_ref pl;
  ro_units : a_units pl' = a_units pl;
  ro_cg : a_cg pl' = a_cg pl;
  ro_props : Permutation (a_props pl) (a_props pl')
}.
Definition returned {A} (r : res A) : Prop := exists a, r = Ok a.

(** *** Counter-rotating twins (C81) *)

(** The propellers are, listed in a suitable order, one by one the mirror images of
    themselves: each has a twin on the other side turning the other way. *)
Definition twin_propellers (pl : airplane R) : Prop :=
  exists l, Permutation (a_props pl) l /\ Forall2 (fun e e' => mirrored_prop (snd e) (snd e')) (a_props pl) l.
(** Twins find the same settings in the dictionary prop_state. *)
Definition twin_settings (pl : airplane R) (ps : option (dict (pval R))) : Prop :=
  forall d e e', ps = Some d -> In e (a_props pl) -> In e' (a_props pl) -> mirrored_prop (snd e) (snd e') ->
    dget d (pr_name (snd e')) = dget d (pr_name (snd e)).
(** A solve in symmetric flight: no sideslip, roll rate, yaw rate, aileron or rudder. *)
Record symmetric_args (pl : airplane R) (i : solve_args) : Prop := {
  sy_given : an (sa_aero i) <> [] /\ als (sa_aero i) = None;
  sy_ctl : match sa_ctl i with
           | None => symmetric_flight (an (sa_aero i)) []
           | Some c => c <> [] /\ symmetric_flight (an (sa_aero i)) c
           end;
  sy_prop : twin_settings pl (sa_prop i)
}.
Definition no_lateral_loads (f : fm R) : Prop := FS f = 0 /\ FY f = 0 /\ MX f = 0 /\ MZ f = 0.
