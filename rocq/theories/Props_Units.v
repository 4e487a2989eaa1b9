(** Independence of the results from the system of units (C72).  Vocabulary: Spec_Units.v.

    [l], [k] and [m] convert lengths, velocities and densities, so [m k^2 l^2] converts forces
    and [m k^2 l^3] moments. *)
From Coq Require Import Reals ZArith String Bool Arith Lia Lra List.
From Verif Require Import Base Num RVec Geometry Api Grid LLModel PropModel Spec_Grid Spec_Geom Spec_LL MU Spec_MU Spec_Units
     Linalg Linalg2 Demo_LL MU_thm13 Prop_thm6 Prop_thm7 MU_units Demo_MU Demo_Units.
Import ListNotations.
Local Open Scope string_scope.
Local Open Scope R_scope.

(** *** C72 *)
(** An airplane (wings, propellers or both) and the same airplane in other units: either both
    can be built or the same exception is raised, and every session gets the same answers: same
    exceptions, same coefficients, derivatives and angles, forces, moments, velocities and
    positions converted. *)
Theorem C72_session :
  forall (m k l : R) u E pl rs rs', 0 < m -> 0 < k -> 0 < l -> exact_solver (me_lsolve E) ->
    Forall2 (request_in m k l) rs rs' ->
    match make_machup E pl, make_machup E (plane_in l u pl) with
    | Ok X, Ok X' => session E X' (init_mstate X') rs' = map (same_outcome m k l) (session E X (init_mstate X) rs)
    | Err e, Err e' => e = e'
    | _, _ => False
    end.
Proof. exact unit_free. Qed.
Print Assumptions C72_session.

(** pitch_trim is not in the list of requests: it compares lift and moment with one number, so
    the same flight can be trimmed in one system of units and not yet in another. *)
Theorem C72_trim_depends_on_units_refuted :
  ~ (forall (m k l : R) u E pl X X' a a' c L M error, 0 < m -> 0 < k -> 0 < l -> exact_solver (me_lsolve E) -> a_props pl = [] ->
       make_machup E pl = Ok X -> make_machup E (plane_in l u pl) = Ok X' -> complete a -> state_in m k l a a' ->
       fst (pitch_trim (host_of E X' None) E (m * k ^ 2 * l ^ 2 * L) (m * k ^ 2 * l ^ 2 * l * M) None error (MkW (Some a') (Some c) (init_mstate X') [] []))
       = fst (pitch_trim (host_of E X None) E L M None error (MkW (Some a) (Some c) (init_mstate X) [] []))).
Proof.
  intros Q. destruct (trim_units None) as (L & f & w & Kf & EL & K & K').
  assert (Hp : a_props (flyer (T := R)) = []) by (rewrite flyer_eq; reflexivity).
  assert (M' : make_machup gauss_env (plane_in 2 None flyer) = Ok (machup_in 2 None flyer_machup)).
  { rewrite (make_machup_in 2 ltac:(lra) None gauss_env flyer), flyer_made. reflexivity. }
  assert (Hc : complete (level 10 1)) by (split; discriminate).
  assert (St : state_in 1 2 2 (level 10 1) (level (2 * 10) 1)) by (apply level_in; lra).
  specialize (Q 1 2 2 None gauss_env flyer _ _ (level 10 1) (level (2 * 10) 1) neutral L (MY f) 1 ltac:(lra) ltac:(lra) ltac:(lra) gauss_exact Hp
                (flyer_made gauss_env) M' Hc St).
  rewrite K in Q. cbn [fst] in Q.
  match type of Q with fst ?p = _ => apply (K' (snd p)); rewrite <- Q; apply surjective_pairing end.
Qed.
Print Assumptions C72_trim_depends_on_units_refuted.

(** The two-section wing of Demo_LL.v in feet and slugs per cubic foot, and in metres and
    kilograms per cubic metre: the session starts with a solve that returns. *)
Example C72_applies : let ft := 3048 / 10000 in let slug := 515379 / 1000 in
  let rs := [Ask_solve (straight 100 (23769 / 10000000), None, None); Ask_derivatives (level 90 (23769 / 10000000), None, None);
             Ask_target_lift 50 (1 / 1000) (level 90 (23769 / 10000000), None, None)] in
  let rs' := [Ask_solve (straight (ft * 100) (slug * (23769 / 10000000)), None, None);
              Ask_derivatives (level (ft * 90) (slug * (23769 / 10000000)), None, None);
              Ask_target_lift (slug * ft ^ 2 * ft ^ 2 * 50) (1 / 1000) (level (ft * 90) (slug * (23769 / 10000000)), None, None)] in
  Forall2 (request_in slug ft ft) rs rs' /\
  exists X' f rest, make_machup gauss_env (plane_in ft (Some "SI") flyer) = Ok X' /\
    session gauss_env flyer_machup (init_mstate flyer_machup) rs = Ok (Got_forces f) :: rest /\
    session gauss_env X' (init_mstate X') rs' = Ok (Got_forces (fm_in slug ft ft f)) :: map (same_outcome slug ft ft) rest.
Proof.
  cbv zeta. set (ft := 3048 / 10000). set (slug := 515379 / 1000). set (rho := 23769 / 10000000).
  assert (Hf : 0 < ft) by (unfold ft; lra). assert (Hs : 0 < slug) by (unfold slug; lra).
  assert (Hp : a_props (flyer (T := R)) = []) by (rewrite flyer_eq; reflexivity).
  match goal with |- Forall2 _ ?x ?y /\ _ => set (rs := x); set (rs' := y) end.
  assert (St : state_in slug ft ft (straight 100 rho) (straight (ft * 100) (slug * rho))).
  { split; [|reflexivity]. intros key. unfold straight, entry_in. cbn [an dget].
    destruct (key =? "V_mag") eqn:E1; [apply String.eqb_eq in E1; subst key; reflexivity|]. destruct (key =? "rho"); reflexivity. }
  assert (F : Forall2 (request_in slug ft ft) rs rs').
  { repeat constructor; try discriminate; first [exact (proj1 St) | apply (level_in slug ft ft _ _ _ _ eq_refl eq_refl)]. }
  split; [exact F|].
  pose proof (unit_free slug ft ft (Some "SI") gauss_env flyer rs rs' Hs Hf Hf gauss_exact F) as K. rewrite flyer_made in K.
  destruct (make_machup gauss_env (plane_in ft (Some "SI") flyer)) as [X'|e]; [|contradiction].
  destruct (flyer_solves 100 rho None None [] ltac:(lra)) as (res & w' & R0 & _).
  exists X', (add_fm zero_fm (r_total res)). eexists. split; [reflexivity|].
  assert (G : session gauss_env flyer_machup (init_mstate flyer_machup) rs
    = Ok (Got_forces (add_fm zero_fm (r_total res))) :: session gauss_env flyer_machup (w_model w') (List.tl rs)).
  { change (session gauss_env flyer_machup (init_mstate flyer_machup) rs)
      with (let (x, s') := ask Got_forces (mu_solve gauss_env flyer_machup None None) (straight 100 rho, None, None) (init_mstate flyer_machup) in
            x :: session gauss_env flyer_machup s' (List.tl rs)).
    unfold ask. cbn [fst snd]. rewrite R0. reflexivity. }
  split; [exact G|]. rewrite K, G. reflexivity.
Qed.

(** The propeller of Prop_thm6.v, at a given advance ratio and at a given rotation rate, in two
    systems of units; it turns, and the first solve returns. *)
Example C72_applies_to_propellers : exists E X f rest,
  let ft := 3048 / 10000 in let slug := 515379 / 1000 in
  let at_J := Some [("J", PNum (/ 2))] in
  let rs := [Ask_solve (cruise, None, at_J); Ask_distributions (cruise, None, Some [("rot_per_sec", PNum 200)]);
             Ask_derivatives (cruise, None, at_J)] in
  let cruise' := level (ft * 100) (slug * (1 / 400)) in
  let rs' := [Ask_solve (cruise', None, at_J); Ask_distributions (cruise', None, Some [("rot_per_sec", PNum (ft / ft * 200))]);
              Ask_derivatives (cruise', None, at_J)] in
  Forall2 (request_in slug ft ft) rs rs' /\
  exact_solver (me_lsolve E) /\ make_machup E demo_plane = Ok X /\ List.length (mm_props X) = 1%nat /\
  session E X (init_mstate X) rs = Ok (Got_forces f) :: rest /\
  exists X', make_machup E (plane_in ft (Some "SI") demo_plane) = Ok X' /\
    session E X' (init_mstate X') rs' = Ok (Got_forces (fm_in slug ft ft f)) :: map (same_outcome slug ft ft) rest.
Proof.
  destruct demo_plane_solves as (E & X & f & w & He & Em & Hl & K & _).
  exists E, X, f. eexists. cbv zeta. set (ft := 3048 / 10000). set (slug := 515379 / 1000).
  assert (Hf : 0 < ft) by (unfold ft; lra). assert (Hs : 0 < slug) by (unfold slug; lra).
  match goal with |- Forall2 _ ?x ?y /\ _ => set (rs := x); set (rs' := y) end.
  assert (I1 : forall p, speeds_given p -> inputs_in slug ft ft (cruise, None, p)
     (level (ft * 100) (slug * (1 / 400)), None, option_map (prop_state_in ft ft) p)).
  { intros p Hp. split; [split; discriminate|]. split; [apply (level_in slug ft ft _ _ _ _ eq_refl eq_refl)|]. auto. }
  assert (J1 : speeds_given (Some [("J", PNum (/ 2))])).
  { split; [split; reflexivity|]. intros name d'. cbn [dget]. destruct (name =? "J"); discriminate. }
  assert (J2 : speeds_given (Some [("rot_per_sec", PNum 200)])).
  { split; [split; reflexivity|]. intros name d'. cbn [dget]. destruct (name =? "rot_per_sec"); discriminate. }
  assert (F : Forall2 (request_in slug ft ft) rs rs').
  { constructor; [|constructor; [|constructor; [|constructor]]].
    - constructor. exact (I1 _ J1).
    - constructor. exact (I1 _ J2).
    - constructor. exact (I1 _ J1). }
  split; [exact F|]. split; [exact He|]. split; [exact Em|]. split; [exact Hl|].
  assert (G : session E X (init_mstate X) rs = Ok (Got_forces f) :: session E X (w_model w) (List.tl rs)).
  { change (session E X (init_mstate X) rs)
      with (let (x, s') := ask Got_forces (mu_solve E X (Some [("J", PNum (/ 2))]) None) (cruise, None, Some [("J", PNum (/ 2))]) (init_mstate X) in
            x :: session E X s' (List.tl rs)).
    unfold ask. cbn [fst snd]. rewrite K. reflexivity. }
  split; [exact G|].
  pose proof (unit_free slug ft ft (Some "SI") E demo_plane rs rs' Hs Hf Hf He F) as Q. rewrite Em in Q.
  destruct (make_machup E (plane_in ft (Some "SI") demo_plane)) as [X'|e]; [|contradiction].
  exists X'. split; [reflexivity|]. rewrite Q, G. reflexivity.
Qed.
