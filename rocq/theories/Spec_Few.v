(** Settings under which a propeller needs no search for its rotation rate (C87). *)
From Coq Require Import Reals String List.
From Verif Require Import Base Num Geometry PropModel Spec_Prop.
Import ListNotations.
Local Open Scope string_scope.
Local Open Scope R_scope.

(** At airspeed [V]: nothing given (the default, J = 1/2); an advance ratio that is not 0, at an
    airspeed that is not 0; an advance ratio together with a rotation rate if one of these is 0;
    or a rotation rate that is not 0.  [refused] of Spec_Prop.v lists what raises. *)
Definition accepted (V : R) (set : option (pval R)) : Prop :=
  empty_setting set \/
  exists l, set = Some (PDict l) /\
    ((exists j, dget l "J" = Some (PNum j) /\ j <> 0 /\ V <> 0) \/
     (exists j n, dget l "J" = Some (PNum j) /\ dget l "rot_per_sec" = Some (PNum n) /\ (j = 0 \/ V = 0)) \/
     (exists n, dget l "J" = None /\ dget l "rot_per_sec" = Some (PNum n) /\ n <> 0)).
