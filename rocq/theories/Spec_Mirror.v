(** Specification vocabulary for mirrored flight (C76, C77): an airplane that is its own
    mirror image in the plane y = 0, flown in two states that are mirror images. *)
From Coq Require Import Reals String List.
From Verif Require Import Base Num Geometry Api Grid LLModel Spec_Grid Spec_Geom Spec_LL.
Import ListNotations.
Set Implicit Arguments.
Local Open Scope string_scope.
Local Open Scope R_scope.

(** *** The airplane *)

(** A section whose lift is odd and whose drag is even in the angle of attack. *)
Definition symmetric_airfoil (a : airfoil R) : Prop :=
  af_alpha_L0 a = 0 /\ af_Cm_L0 a = 0 /\ af_Cm_alpha a = 0 /\ af_CD_L a = 0.

(** Half of a wing that stands upright in the plane of symmetry, as fins do: no twist, no
    lateral displacement, symmetric airfoils, and a control surface (if any) that answers to
    neither elevator nor flap. *)
Record upright (s : segment R) : Prop := {
  up_dihedral : sg_dihedral s = 90 \/ sg_dihedral s = -90;
  up_twist : sg_mount s = 0 /\ sg_washout s = 0;
  up_plane : sg_yoffset s = 0 /\ vy (sg_delta s) = 0;
  up_airfoils : symmetric_airfoil (sg_root_af s) /\ symmetric_airfoil (sg_tip_af s);
  up_control : entry (cs_mix (sg_control s)) "elevator" = 0 /\ entry (cs_mix (sg_control s)) "flap" = 0
}.
Definition half_of (w : wing R) (s : segment R) : Prop := w_left w = Some s \/ w_right w = Some s.
(** A fin: upright and hanging on the origin, on an airplane positioned in the plane of
    symmetry, or on another fin. *)
Inductive fin (pl : airplane R) : wing R -> Prop :=
| fin_top w :
    (forall s, half_of w s ->
       upright s /\ (sg_parent s = PNone \/ sg_parent s = PAirplane /\ vy (airplane_position pl) = 0)) ->
    fin pl w
| fin_child w id p :
    (forall s, half_of w s -> upright s /\ sg_parent s = PWing id) ->
    nth_error (a_store pl) id = Some p -> fin pl p ->
    fin pl w.

(** The airplane is its own mirror image. *)
Record mirror_symmetric (pl : airplane R) : Prop := {
  ms_wings : forall w, In w (lookup_wings pl) -> symmetric_wing pl w \/ fin pl w;
  ms_spans : forall s, In s (wingsegments pl) -> 0 < sg_span s
}.

(** *** The two states *)

(** The same flow seen in the mirror: sideslip, roll rate and yaw rate are reversed. *)
Record mirrored_flow (a a' : aero_state R) : Prop := {
  mf_uniform : als a = None /\ als a' = None;
  mf_V : dget (an a') "V_mag" = dget (an a) "V_mag";
  mf_rho : dget (an a') "rho" = dget (an a) "rho";
  mf_alpha : entry (an a') "alpha" = entry (an a) "alpha";
  mf_beta : entry (an a') "beta" = - entry (an a) "beta";
  mf_roll : entry (an a') "roll_rate" = - entry (an a) "roll_rate";
  mf_pitch : entry (an a') "pitch_rate" = entry (an a) "pitch_rate";
  mf_yaw : entry (an a') "yaw_rate" = - entry (an a) "yaw_rate"
}.
(** The same controls seen in the mirror: aileron and rudder are reversed. *)
Record mirrored_controls (c c' : dict R) : Prop := {
  mc_aileron : entry c' "aileron" = - entry c "aileron";
  mc_elevator : entry c' "elevator" = entry c "elevator";
  mc_rudder : entry c' "rudder" = - entry c "rudder";
  mc_flap : entry c' "flap" = entry c "flap"
}.

(** *** What is computed *)

(** The same forces and moments seen in the mirror: the lateral ones are reversed. *)
Record mirrored_forces (f f' : fm R) : Prop := {
  mo_FL : FL f' = FL f; mo_FD : FD f' = FD f; mo_FS : FS f' = - FS f;
  mo_FX : FX f' = FX f; mo_FY : FY f' = - FY f; mo_FZ : FZ f' = FZ f;
  mo_MX : MX f' = - MX f; mo_MY : MY f' = MY f; mo_MZ : MZ f' = - MZ f
}.
Record mirrored_results (r r' : ll_results R) : Prop := {
  mr_inviscid : mirrored_forces (r_inviscid r) (r_inviscid r');
  mr_viscous : mirrored_forces (r_viscous r) (r_viscous r');
  mr_total : mirrored_forces (r_total r) (r_total r');
  mr_LoD : r_LoD r' = r_LoD r
}.
(** Circulations: what a section carries is carried in the mirror by its image; sections
    of a fin are their own image and carry the opposite. *)
Definition mirrored_circulation (secs : list (section R)) (gam gam' : list R) : Prop :=
  List.length gam' = List.length gam /\
  forall i s y, nth_error secs i = Some s -> nth_error gam i = Some y ->
    (exists j t, nth_error secs j = Some t /\ t = mirror_section (s_name t) s /\ nth_error gam' j = Some y) \/
    (vy (s_r s) = 0 /\ nth_error gam' i = Some (- y)).

(** *** Derivatives in symmetric flight *)

(** Neither flow nor controls distinguish left from right. *)
Record symmetric_flight (a c : dict R) : Prop := {
  sf_beta : entry a "beta" = 0;
  sf_roll : entry a "roll_rate" = 0;
  sf_yaw : entry a "yaw_rate" = 0;
  sf_aileron : entry c "aileron" = 0;
  sf_rudder : entry c "rudder" = 0
}.
(** Coefficients that change sign in the mirror, and those that do not. *)
Definition lateral : list string := ["CS"; "CY"; "Cl"; "Cn"].
Definition longitudinal : list string := ["CL"; "CD"; "CX"; "CZ"; "Cm"].
(** The derivatives [suffix] of all these coefficients are zero. *)
Definition zero_derivatives (names : list string) (d : dict R) (suffix : string) : Prop :=
  forall name, In name names -> dget d (String.append name suffix) = Some 0.
