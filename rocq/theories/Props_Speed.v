(** Other airspeeds and densities, propellers included (C86).  Vocabulary: Spec_Units.v, with
    the unit of length unchanged: [request_in m k 1] is the same request with the density times
    [m], the airspeed and all rates of rotation (of the airplane and of propellers with a given
    rate) times [k], and the same angles, deflections and advance ratios. *)
From Coq Require Import Reals ZArith String Bool Arith Lia Lra List.
From Verif Require Import Base Num RVec Geometry Api Grid LLModel PropModel Spec_Grid Spec_Geom Spec_LL MU Spec_MU Spec_Units
  Linalg Spec_Twin MU_thm13 Demo_LL Demo_MU Demo_Twin Demo_TwinD Props_Twin MU_speed.
Import ListNotations.
Local Open Scope string_scope.
Local Open Scope R_scope.

(** *** C86 *)
(** In any session the coefficients, derivatives and angles are the same at all airspeeds and
    densities; forces and moments are proportional to [m k^2]. *)
Theorem C86_speed_and_density :
  forall m k E pl X rs rs', 0 < m -> 0 < k -> exact_solver (me_lsolve E) -> make_machup E pl = Ok X ->
    Forall2 (request_in m k 1) rs rs' ->
    session E X (init_mstate X) rs' = map (same_outcome m k 1) (session E X (init_mstate X) rs).
Proof. exact speed_free. Qed.
Print Assumptions C86_speed_and_density.

(** A solve alone: the loads are those of the first flow times [m k^2]. *)
Theorem C86_loads :
  forall m k E pl X a a' c ps f w, 0 < m -> 0 < k -> exact_solver (me_lsolve E) -> make_machup E pl = Ok X ->
    inputs_in m k 1 (a, c, ps) (a', c, option_map (prop_state_in k 1) ps) ->
    mu_solve E X ps None (MkW (Some a) c (init_mstate X) [] []) = (Ok f, w) ->
    exists f' w', mu_solve E X (option_map (prop_state_in k 1) ps) None (MkW (Some a') c (init_mstate X) [] []) = (Ok f', w') /\
      FL f' = m * k ^ 2 * FL f /\ FD f' = m * k ^ 2 * FD f /\ FS f' = m * k ^ 2 * FS f /\
      FX f' = m * k ^ 2 * FX f /\ FY f' = m * k ^ 2 * FY f /\ FZ f' = m * k ^ 2 * FZ f /\
      MX f' = m * k ^ 2 * MX f /\ MY f' = m * k ^ 2 * MY f /\ MZ f' = m * k ^ 2 * MZ f.
Proof.
  intros m k E pl X a a' c ps f w Hm Hk He HX Hi K.
  pose proof (speed_free m k E pl X [Ask_solve (a, c, ps)] [Ask_solve (a', c, option_map (prop_state_in k 1) ps)] Hm Hk He HX
    ltac:(constructor; [constructor; exact Hi|constructor])) as Q.
  cbn [session serve snd] in Q. unfold ask in Q. cbn [fst snd] in Q. rewrite K in Q.
  destruct (mu_solve E X (option_map (prop_state_in k 1) ps) None (MkW (Some a') c (init_mstate X) [] [])) as [[f'|e] w']; [|discriminate Q].
  cbn [session map same_outcome reply_in] in Q. injection Q as ->. eexists _, w'. split; [reflexivity|].
  unfold fm_in. cbn [FL FD FS FX FY FZ MX MY MZ]. repeat split; ring.
Qed.
Print Assumptions C86_loads.

(** The twin-engined flyer: a solve with sideslip, roll and yaw and deflected ailerons, then the
    derivatives in symmetric flight, at twice the speed and a third of the density. *)
Definition faster (a : aero_state R) : aero_state R :=
  MkAero (map (fun e => (fst e, entry_in (1 / 3) 2 1 (fst e) (snd e))) (an a)) None.
Lemma faster_in a : als a = None -> state_in (1 / 3) 2 1 a (faster a).
Proof.
  intros Ha. split; [|now rewrite Ha]. intros key. unfold faster. cbn [an]. generalize (an a). intros d.
  induction d as [|[k x] d IH]; cbn [map dget fst snd]; [reflexivity|]. destruct (String.eqb key k) eqn:E; [|exact IH].
  apply String.eqb_eq in E. subst k. reflexivity.
Qed.
Example C86_applies : exists X f d,
  let rs := [Ask_solve (slipping, Some banked, half_J); Ask_derivatives (straight_on, Some neutral, half_J)] in
  let rs' := [Ask_solve (faster slipping, Some banked, half_J); Ask_derivatives (faster straight_on, Some neutral, half_J)] in
  exact_solver (me_lsolve fair_menv) /\ make_machup fair_menv twin = Ok X /\ List.length (mm_props X) = 2%nat /\
  Forall2 (request_in (1 / 3) 2 1) rs rs' /\
  session fair_menv X (init_mstate X) rs = [Ok (Got_forces f); Ok (Got_derivatives (Answer d))].
Proof.
  destruct twin_machup as (X & HX & _ & _ & _ & El & _).
  assert (F : fair (an slipping)).
  { unfold fair, slipping, entry. cbn [an dget String.eqb Ascii.eqb Bool.eqb]. repeat split; rewrite Rabs_right; lra. }
  assert (G : gentle (an straight_on)).
  { unfold gentle, straight_on, entry. cbn [an dget String.eqb Ascii.eqb Bool.eqb]. split; [reflexivity|]. split; [reflexivity|].
    intros k Hk. cbn [In] in Hk. repeat (destruct Hk as [<-|Hk]; [cbn; rewrite Rabs_right; lra|]). contradiction. }
  assert (I0 : even (init_mstate X)) by (unfold even, init_mstate; cbn [m_ps]; rewrite map_length; exact El).
  destruct (twin_total X HX slipping banked (init_mstate X) F ltac:(discriminate) I0) as (f & a' & s & K & _ & I1).
  destruct (twin_derivatives X None (MkW (Some straight_on) (Some neutral) s [] []) straight_on neutral HX I1 eq_refl G eq_refl ltac:(discriminate)) as (d & w2 & Kd).
  exists X, f, d. cbv zeta. split; [exact gauss_exact|]. split; [exact HX|]. split; [exact El|]. split.
  { assert (Hj : half_J = option_map (prop_state_in 2 1) half_J) by reflexivity.
    assert (Sg : speeds_given half_J).
    { split; [split; reflexivity|]. intros name d'. cbn [dget]. destruct (String.eqb name "J"); discriminate. }
    constructor; [constructor|constructor; [constructor|constructor]]; (split; [split; discriminate|]); (split; [now apply faster_in|]); auto. }
  destruct (solve_given fair_menv X half_J None (MkW (Some slipping) (Some banked) (init_mstate X) [] []) slipping eq_refl ltac:(left; discriminate))
    as (q & b & s1 & P & A1 & A2 & A3 & A4 & _).
  cbn [host_of h_solve] in K. cbn [w_ctl w_model] in P. rewrite P in K.
  apply pair_equal_spec in K. destruct K as [K K2]. apply pair_equal_spec in K. destruct K as [K _]. rewrite K in A4. rewrite K2 in A3.
  cbn [session serve snd]. unfold ask. cbn [fst snd].
  destruct (mu_solve fair_menv X half_J None (MkW (Some slipping) (Some banked) (init_mstate X) [] [])) as [r w]. cbn [fst snd] in A3, A4. subst r. rewrite A3.
  rewrite Kd. reflexivity.
Qed.
