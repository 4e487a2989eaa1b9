(** Specification vocabulary for the derivatives of an airplane with counter-rotating twins (C85). *)
From Coq Require Import Reals String List.
From Verif Require Import Base Num Geometry Api Grid LLModel PropModel Spec_Grid Spec_Geom Spec_LL Spec_Mirror MU Spec_MU Spec_MirrorProp.
Import ListNotations.
Set Implicit Arguments.
Local Open Scope R_scope.

(** The states an object reaches by calls of solve that return: in any flow given by numbers,
    with any controls, and with settings that are the same for both propellers of a pair. *)
Inductive flown (E : menv R) (pl : airplane R) (X : machup R) : mstate R -> Prop :=
| flown_new : flown E pl X (init_mstate X)
| flown_on : forall s ps a c f a' s', flown E pl X s -> twin_settings pl ps -> an a <> [] ->
    h_solve (host_of E X ps) a c s = (Ok f, a', s') -> flown E pl X s'.
