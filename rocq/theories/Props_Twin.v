(** Counter-rotating twins after any earlier flight, and the derivatives of such an airplane (C85). *)
From Coq Require Import Reals ZArith String Bool Arith Lia Lra List Permutation.
From Verif Require Import Base Num RVec Geometry Api Grid LLModel PropModel Spec_Grid Spec_Geom Spec_LL Spec_Prop MU Spec_MU
  Spec_Mirror Spec_MirrorProp Spec_Twin Demo_LL Demo_MU Demo_Twin MU_twin Linalg Linalg2 Demo_TwinD.
Import ListNotations.
Local Open Scope string_scope.
Local Open Scope R_scope.

(** *** C85 *)
(** An airplane with counter-rotating twins has no side force, rolling or yawing moment in
    symmetric flight, whatever was flown with the same object before: sideslip, rolling and
    deflected ailerons included. *)
Theorem C85_balance_after_any_flight :
  forall E pl X,
    built pl -> mirror_symmetric pl -> vy (a_cg pl) = 0 -> twin_propellers pl -> a_props pl <> [] ->
    exact_solver (me_lsolve E) -> (forall n n', pe_mem (me_prop E) n = pe_mem (me_prop E) n') ->
    make_machup E pl = Ok X ->
    forall s ps a c f a' s',
      flown E pl X s -> twin_settings pl ps -> an a <> [] -> c <> [] -> symmetric_flight (an a) c ->
      h_solve (host_of E X ps) a (Some c) s = (Ok f, a', s') ->
      no_lateral_loads f.
Proof. exact flown_balance. Qed.
Print Assumptions C85_balance_after_any_flight.

(** In symmetric flight its side force, rolling and yawing moment change neither with the
    angle of attack, nor with elevator, flap or pitch rate. *)
Theorem C85_derivatives_with_twins :
  forall E pl X,
    built pl -> mirror_symmetric pl -> vy (a_cg pl) = 0 -> twin_propellers pl -> a_props pl <> [] ->
    exact_solver (me_lsolve E) -> (forall n n', pe_mem (me_prop E) n = pe_mem (me_prop E) n') ->
    make_machup E pl = Ok X ->
    forall file w ps a c d w',
      flown E pl X (w_model w) -> twin_settings pl ps ->
      w_aero w = Some a -> an a <> [] -> w_ctl w = Some c -> c <> [] -> symmetric_flight (an a) c ->
      derivatives (host_of E X ps) file w = (Ok (Answer d), w') ->
      zero_derivatives lateral (dv_stab d) "_a" /\ zero_derivatives lateral (dv_cont d) "_de" /\
      zero_derivatives lateral (dv_cont d) "_df" /\ zero_derivatives lateral (dv_damp d) "_qbar".
Proof. exact C85_lemma. Qed.
Print Assumptions C85_derivatives_with_twins.

(** The twin-engined flyer after a flight with sideslip, roll and yaw, then in symmetric flight. *)
Definition slipping : aero_state R :=
  MkAero [("V_mag", 10); ("rho", 1); ("alpha", 3); ("beta", 20); ("roll_rate", 1 / 3); ("yaw_rate", 1 / 2)] None.
Definition straight_on : aero_state R := MkAero [("V_mag", 10); ("rho", 1); ("alpha", 1 / 4)] None.
Definition banked : dict R := [("aileron", 5); ("rudder", 2)].
Definition neutral : dict R := [("elevator", 3)].
Example C85_applies : exists X s,
  built twin /\ mirror_symmetric twin /\ vy (a_cg twin) = 0 /\ twin_propellers twin /\ a_props twin <> [] /\
  exact_solver (me_lsolve fair_menv) /\ (forall n n', pe_mem (me_prop fair_menv) n = pe_mem (me_prop fair_menv) n') /\
  make_machup fair_menv twin = Ok X /\ twin_settings twin half_J /\ symmetric_flight (an straight_on) neutral /\
  flown fair_menv twin X s /\
  (exists f a', h_solve (host_of fair_menv X half_J) slipping (Some banked) (init_mstate X) = (Ok f, a', s)) /\
  (exists f a' s', h_solve (host_of fair_menv X half_J) straight_on (Some neutral) s = (Ok f, a', s')) /\
  (exists d w', derivatives (host_of fair_menv X half_J) None (MkW (Some straight_on) (Some neutral) s [] []) = (Ok (Answer d), w')).
Proof.
  destruct twin_machup as (X & HX & _ & _ & _ & El & _).
  assert (F : fair (an slipping)).
  { unfold fair, slipping, entry. cbn [an dget String.eqb Ascii.eqb Bool.eqb]. repeat split; rewrite Rabs_right; lra. }
  assert (G : gentle (an straight_on)).
  { unfold gentle, straight_on, entry. cbn [an dget String.eqb Ascii.eqb Bool.eqb]. split; [reflexivity|]. split; [reflexivity|].
    intros k Hk. cbn [In] in Hk. repeat (destruct Hk as [<-|Hk]; [cbn; rewrite Rabs_right; lra|]). contradiction. }
  assert (I0 : even (init_mstate X)) by (unfold even, init_mstate; cbn [m_ps]; rewrite map_length; exact El).
  destruct (twin_total X HX slipping banked (init_mstate X) F ltac:(discriminate) I0) as (f & a' & s & K & _ & I1).
  destruct (twin_total X HX straight_on neutral s (gentle_fair _ G) ltac:(discriminate) I1) as (f1 & a1 & s1 & K1 & _ & _).
  exists X, s.
  split; [exact twin_built|]. split; [exact (winged_symmetric _)|]. split; [reflexivity|]. split; [exact twin_twins|].
  split; [discriminate|]. split; [exact gauss_exact|]. split; [reflexivity|]. split; [exact HX|]. split; [exact twin_settings_half|].
  split; [split; reflexivity|]. split.
  { eapply flown_on; [apply flown_new|exact twin_settings_half| |exact K]. discriminate. }
  split; [exists f, a'; exact K|]. split; [exists f1, a1, s1; exact K1|].
  eapply twin_derivatives; [exact HX|exact I1|reflexivity|exact G|reflexivity|discriminate].
Qed.
