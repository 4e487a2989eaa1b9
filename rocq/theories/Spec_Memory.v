(** Specification vocabulary for what propellers remember of earlier calls (C83). *)
From Coq Require Import String List.
From Verif Require Import Base Num Geometry Grid LLModel PropModel Spec_Prop.
Import ListNotations.
Set Implicit Arguments.
Local Open Scope string_scope.

(** Uninitialised memory holds the same numbers at every allocation (C52 says where they are
    read). *)
Definition steady_memory {T} (E : penv T) : Prop :=
  forall name n n' i, pe_mem E name n i = pe_mem E name n' i.
(** A setting that fixes the rotation rate: none at all, an advance ratio, or a rate; not a
    brake power or a throttle. *)
Definition fixes_rate {T} {N : num_ops T} (v : option (pval T)) : Prop :=
  empty_setting v \/
  exists l, v = Some (PDict l) /\ (dget l "J" <> None \/ dget l "rot_per_sec" <> None).
(** Two pasts of a propeller that have left the same induced angles, and the same rotation
    rate unless the settings [ps] of the call to come fix it. *)
Definition same_start {T} {N : num_ops T} (ps : option (dict (pval T))) (g : pgeom T) (s s' : pstate T) : Prop :=
  p_ei s' = p_ei s /\ (fixes_rate (setting_of ps (pg_name g)) \/ p_n s' = p_n s).
(** All that a call has left in a propeller, apart from the number of allocations made. *)
Definition remembered {T} (s : pstate T) : pstate T :=
  MkPS 0 (p_ei s) (p_n s) (p_J s) (p_power s) (p_throttle s) (p_v s) (p_rho s) (p_Vinf s)
       (p_einf s) (p_alpha s) (p_CL s) (p_CD s) (p_CT s) (p_Cl s) (p_CNa s) (p_Cna s) (p_CP s) (p_eff s)
       (p_Vi s) (p_Vxi s) (p_Vti s) (p_T s) (p_l s) (p_F s) (p_M s).

(** A setting that asks for a power or (with a motor) a throttle and leaves the rate open. *)
Definition by_power {T} (has_motor : Prop) (l : dict (pval T)) : Prop :=
  dget l "J" = None /\ dget l "rot_per_sec" = None /\
  ((exists P, dget l "brake_power" = Some (PNum P)) \/
   (dget l "brake_power" = None /\ has_motor /\ exists t, dget l "electric_throttle" = Some (PNum t))).
(** a flow with the two entries that propellers need *)
Definition full_flow {T} (a : aero_state T) : Prop := dget (an a) "V_mag" <> None /\ dget (an a) "rho" <> None.
