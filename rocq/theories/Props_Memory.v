(** Property theorems: what propellers remember (C83). *)
From Coq Require Import Reals String List.
From Verif Require Import Base Num Geometry Grid LLModel PropModel Spec_Grid Spec_LL Spec_Prop MU Spec_MU Spec_MirrorProp Spec_Memory
  Prop_thm7 Demo_Blade MU_memory Demo_Memory.
Import ListNotations.
Local Open Scope string_scope.
Local Open Scope R_scope.

(** ** C83: what an earlier call can change *)

(** One call with aero_state and control_state given, after two histories that left every
    propeller with the same induced angles and, where the call leaves the rate open, the same
    rate: same result or exception and same file; after a return also the same state of
    every propeller and the same readings of the wings. *)
Theorem C83_propellers_remember_angles_and_rate :
  forall T (N : num_ops T) (E : menv T) (X : machup T) ps file a c h h' fs log log',
    steady_memory (me_prop E) -> given a -> given_control c ->
    Forall (fun q => same_start ps (fst q) (fst (snd q)) (snd (snd q)))
           (combine (mm_props X) (combine (m_ps (mu_after E X h)) (m_ps (mu_after E X h')))) ->
    let (r, w) := mu_solve E X ps file (MkW (Some a) c (mu_after E X h) fs log) in
    let (r', w') := mu_solve E X ps file (MkW (Some a) c (mu_after E X h') fs log') in
    r' = r /\ w_files w' = w_files w /\
    (returned r ->
       map remembered (m_ps (w_model w')) = map remembered (m_ps (w_model w)) /\
       forall g, mm_grid X = Some g -> observed g (m_ll (w_model w')) = observed g (m_ll (w_model w))).
Proof.
  intros T N E X ps file a c h h' fs log log' HM Ha Hc HS.
  pose proof (solve_sim E HM X ps file a c h h' fs log log' Ha Hc HS) as K.
  destruct (mu_solve E X ps file (MkW (Some a) c (mu_after E X h) fs log)) as [r w].
  destruct (mu_solve E X ps file (MkW (Some a) c (mu_after E X h') fs log')) as [r' w'].
  destruct K as (K1 & K2 & K3). split; [exact K1|]. split; [exact K2|]. intros [f Hf]. destruct (K3 f Hf) as [K4 K5].
  split; [exact K4|]. intros g Hg. unfold wing_reading in K5. rewrite Hg in K5. cbn [option_map] in K5. congruence.
Qed.
Print Assumptions C83_propellers_remember_angles_and_rate.

(** Sequences of calls: once the first call has started alike, all calls have the same
    outcome as long as they return. *)
Theorem C83_later_calls_agree :
  forall (E : menv R) X i calls h h',
    steady_memory (me_prop E) ->
    Forall (fun i => given (sa_aero i) /\ given_control (sa_ctl i)) (i :: calls) ->
    Forall (fun q => same_start (sa_prop i) (fst q) (fst (snd q)) (snd (snd q)))
           (combine (mm_props X) (combine (m_ps (mu_after E X h)) (m_ps (mu_after E X h')))) ->
    Forall returned (solve_all E X (mu_after E X h) (i :: calls)) ->
    solve_all E X (mu_after E X h') (i :: calls) = solve_all E X (mu_after E X h) (i :: calls).
Proof. intros E X i calls h h' HM. exact (solves_sim E X calls HM i h h'). Qed.
Print Assumptions C83_later_calls_agree.

(** "A call that raises leaves nothing behind" is false: asked once to turn at rate 0, the
    first propeller refuses every later power or throttle setting. *)
Theorem C83_zero_rate_sticks_refuted :
  forall E X (g : pgeom R) gs h i calls,
    mm_props X = g :: gs ->
    full_flow (sa_aero i) ->
    (exists l, setting_of (sa_prop i) (pg_name g) = Some (PDict l) /\ dget l "J" = None /\ dget l "rot_per_sec" = Some (PNum 0)) ->
    Forall (fun k => full_flow (sa_aero k) /\
                     exists l, setting_of (sa_prop k) (pg_name g) = Some (PDict l) /\ by_power (pg_motor g <> None) l) calls ->
    solve_all E X (mu_after E X h) (i :: calls) = map (fun _ => Err ZeroDivisionError) (i :: calls).
Proof. exact zero_rate_sticks. Qed.
Print Assumptions C83_zero_rate_sticks_refuted.

(** An airplane for which a new object and one that has refused a call start alike, and
    where the call then returns. *)
Example C83_met : exists E X f,
  steady_memory (me_prop E) /\ make_machup E demo_plane = Ok X /\ List.length (mm_props X) = 1%nat /\
  (given (sa_aero half_J) /\ given_control (sa_ctl half_J)) /\
  Forall (fun q => same_start (sa_prop half_J) (fst q) (fst (snd q)) (snd (snd q)))
    (combine (mm_props X) (combine (m_ps (mu_after E X []))
       (m_ps (mu_after E X [MkMuCall vzero (sa_prop no_J) (sa_aero no_J) (sa_ctl no_J)])))) /\
  solve_all E X (mu_after E X []) [no_J] = [Err RuntimeError] /\
  solve_all E X (mu_after E X []) [half_J] = [Ok f].
Proof. exact steady_demo. Qed.
(** A new object returns the loads for a brake power; one asked before for rate 0 raises. *)
Example C83_refuted_met : exists E X P f, make_machup E demo_plane = Ok X /\
  let asked := MkArgs slow None (Some [("brake_power", PNum P)]) in
  let stop := MkArgs slow None (Some [("rot_per_sec", PNum 0)]) in
  solve_all E X (init_mstate X) [asked] = [Ok f] /\
  solve_all E X (init_mstate X) [stop; asked; asked] = [Err ZeroDivisionError; Err ZeroDivisionError; Err ZeroDivisionError].
Proof. exact zero_rate_demo. Qed.
