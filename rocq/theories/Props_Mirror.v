(** Theorems C76 and C77: mirrored flight and derivatives in symmetric flight.
    Vocabulary: Spec_Mirror.v, Spec_MU.v, Spec_LL.v, Spec_Geom.v. *)
From Coq Require Import Reals ZArith String Bool Arith Lia Lra List.
From Verif Require Import Base Num RVec Geometry Api Grid LLModel PropModel Spec_Grid Spec_Geom Spec_LL MU Spec_MU
  LL_state LL_R LL_thm Linalg Demo_LL MU_thm14 Demo_MU Spec_Mirror LL_mirror3 MU_mirror Demo_Mirror.
Import ListNotations.
Local Open Scope string_scope.
Local Open Scope R_scope.

(** *** C76 *)
Theorem C76_mirrored_flight :
  forall ls cosine (pl : airplane R) g h h' k k' d d',
    exact_solver ls -> built pl -> make_grid cosine pl = Ok g -> mirror_symmetric pl ->
    k_aero k = Some d -> k_aero k' = Some d' -> given_aero (Some d) -> given_aero (Some d') ->
    mirrored_flow d d' -> k_cg k' = mirror (k_cg k) -> k_stype k' = k_stype k ->
    mirrored_controls (acting g h k) (acting g h' k') ->
    match call_solve ls g k (after ls g h), call_solve ls g k' (after ls g h') with
    | (Ok _, s), (Ok _, s') =>
      exists r r' gam gam', l_results s = Some r /\ l_results s' = Some r' /\ mirrored_results r r' /\
        l_gamma s = Some gam /\ l_gamma s' = Some gam' /\ mirrored_circulation (g_sections g) gam gam'
    | (Err e, _), (Err e', _) => e' = e
    | _, _ => False
    end.
Proof. exact C76_lemma. Qed.
Print Assumptions C76_mirrored_flight.

(** The same of MachUp objects made from the airplane. *)
Theorem C76_mirrored_forces :
  forall E (pl : airplane R) X ps,
    built pl -> mirror_symmetric pl -> make_machup E pl = Ok X -> a_props pl = [] -> vy (a_cg pl) = 0 ->
    exact_solver (me_lsolve E) -> forall (a c a' c' : dict R) f f',
    a <> [] -> a' <> [] -> c <> [] -> c' <> [] ->
    mirrored_flow (numbers a) (numbers a') -> mirrored_controls c c' ->
    forces_of E X ps a c = Ok f -> forces_of E X ps a' c' = Ok f' -> mirrored_forces f f'.
Proof. exact forces_mirror. Qed.
Print Assumptions C76_mirrored_forces.

(** An airplane with winglets, tail, fin and rudder. *)
Example C76_applies :
  built (finned (T := R)) /\ mirror_symmetric (finned (T := R)) /\
  (forall cosine, exists g, make_grid cosine (finned (T := R)) = Ok g) /\
  exact_solver gauss_solver /\
  mirrored_flow (numbers [("V_mag", 10); ("rho", 1); ("alpha", 3); ("beta", 2); ("yaw_rate", 1 / 10)])
                (numbers [("V_mag", 10); ("rho", 1); ("alpha", 3); ("beta", - 2); ("yaw_rate", - (1 / 10))]) /\
  mirrored_controls [("aileron", 1); ("elevator", 2); ("rudder", 3)] [("elevator", 2); ("rudder", - 3); ("aileron", - 1)].
Proof.
  refine (conj finned_built (conj finned_symmetric (conj finned_grid (conj gauss_exact (conj _ _))))).
  - split; cbn; auto; lra.
  - split; cbn; lra.
Qed.
(** The flyer returns in both of two mirrored states. *)
Example C76_returns :
  built (flyer (T := R)) /\ mirror_symmetric (flyer (T := R)) /\ make_machup gauss_env flyer = Ok flyer_machup /\
  a_props (flyer (T := R)) = [] /\ vy (a_cg (flyer (T := R))) = 0 /\
  forall c : dict R, c <> [] -> exists f f',
    forces_of gauss_env flyer_machup None [("V_mag", 10); ("rho", 1); ("alpha", 3); ("beta", 2)] c = Ok f /\
    forces_of gauss_env flyer_machup None [("V_mag", 10); ("rho", 1); ("alpha", 3); ("beta", - 2)] c = Ok f'.
Proof.
  refine (conj flyer_built (conj flyer_symmetric (conj (flyer_made gauss_env) (conj _ (conj _ _))))).
  - rewrite flyer_eq. reflexivity.
  - rewrite flyer_eq. reflexivity.
  - intros c Hc.
    assert (G : forall b, Rabs b < 60 -> moderate (numbers [("V_mag", 10); ("rho", 1); ("alpha", 3); ("beta", b)])).
    { intros b Hb. split; [reflexivity|]. cbn [numbers an]. unfold entry. cbn [dget String.eqb Ascii.eqb Bool.eqb].
      repeat split; auto; [rewrite Rabs_right; lra|rewrite Rabs_R0; lra]. }
    destruct (flyer_total _ c (init_mstate flyer_machup) (G 2 ltac:(rewrite Rabs_right; lra)) Hc) as (f & s & K).
    destruct (flyer_total _ c (init_mstate flyer_machup) (G (- 2) ltac:(rewrite Rabs_left; lra)) Hc) as (f' & s' & K').
    exists f, f'. unfold forces_of, forces. rewrite K, K'. split; reflexivity.
Qed.

(** *** C77 *)
Theorem C77_no_lateral_loads :
  forall E (pl : airplane R) X ps,
    built pl -> mirror_symmetric pl -> make_machup E pl = Ok X -> a_props pl = [] -> vy (a_cg pl) = 0 ->
    exact_solver (me_lsolve E) -> forall (a c : dict R) f,
    a <> [] -> c <> [] -> symmetric_flight a c -> forces_of E X ps a c = Ok f ->
    FS f = 0 /\ FY f = 0 /\ MX f = 0 /\ MZ f = 0.
Proof. exact forces_self. Qed.
Print Assumptions C77_no_lateral_loads.

Theorem C77_derivatives_decouple :
  forall E (pl : airplane R) X ps,
    built pl -> mirror_symmetric pl -> make_machup E pl = Ok X -> a_props pl = [] -> vy (a_cg pl) = 0 ->
    exact_solver (me_lsolve E) -> forall file w a (c : dict R) h d w',
    w_aero w = Some a -> given a -> als a = None -> w_ctl w = Some c -> c <> [] -> w_model w = mu_after E X h ->
    symmetric_flight (an a) c ->
    derivatives (host_of E X ps) file w = (Ok (Answer d), w') ->
    zero_derivatives lateral (dv_stab d) "_a" /\ zero_derivatives longitudinal (dv_stab d) "_b" /\
    zero_derivatives longitudinal (dv_cont d) "_da" /\ zero_derivatives lateral (dv_cont d) "_de" /\
    zero_derivatives longitudinal (dv_cont d) "_dr" /\ zero_derivatives lateral (dv_cont d) "_df" /\
    zero_derivatives longitudinal (dv_damp d) "_pbar" /\ zero_derivatives lateral (dv_damp d) "_qbar" /\
    zero_derivatives longitudinal (dv_damp d) "_rbar".
Proof. exact derivatives_decoupled. Qed.
Print Assumptions C77_derivatives_decouple.

(** The flyer, whose derivatives can be computed by exact linear algebra. *)
Example C77_applies : forall h,
  let a := numbers [("V_mag", 10); ("rho", 1); ("alpha", 1 / 4)] in let c := [("elevator", 3)] : dict R in
  symmetric_flight (an a) c /\
  exists d w', derivatives (host_of gauss_env flyer_machup None) None (MkW (Some a) (Some c) (mu_after gauss_env flyer_machup h) [] [])
    = (Ok (Answer d), w').
Proof.
  intros h a c. split; [split; reflexivity|].
  eapply (flyer_derivatives None _ a c); [reflexivity| |reflexivity|discriminate].
  split; [reflexivity|]. split; [reflexivity|]. split; [reflexivity|].
  intros k Hk. cbn [In] in Hk. repeat (destruct Hk as [<- | Hk]); [..|contradiction];
    unfold entry; cbn [a numbers an dget String.eqb Ascii.eqb Bool.eqb];
    (rewrite Rabs_R0; lra) || (rewrite Rabs_right; lra).
Qed.
