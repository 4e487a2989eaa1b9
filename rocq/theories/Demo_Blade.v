(** Propellers that meet the hypotheses of the blade-element theorems (C66-C68). *)
From Coq Require Import Reals ZArith String Bool Arith Lia Lra List.
From Verif Require Import Base Num RVec Geometry Grid LLModel PropModel Spec_Grid Spec_LL Spec_Prop
     Spec_Blade Prop_state LL_R LL_thm2 Prop_thm Prop_thm2 Prop_thm3 Prop_thm4 Prop_thm5 Prop_thm6 Prop_thm7 Prop_thm8
     Prop_thm9 Spec_Slip Prop_thm10.
Import ListNotations.
Local Open Scope string_scope.
Local Open Scope R_scope.

Lemma trapezoid_quadrature : quadrature trapezoid.
Proof.
  intros c h ys. induction ys as [|y0 ys IH]; intros xs Hh Hl; [cbn; ring|].
  destruct xs as [|x0 xs]; [discriminate|]. destruct ys as [|y1 ys]; [cbn; ring|].
  destruct xs as [|x1 xs]; [discriminate|].
  change (trapezoid (map (Rmult c) (y0 :: y1 :: ys)) (map (Rmult h) (x0 :: x1 :: xs)))
    with ((c * y0 + c * y1) / 2 * (h * x1 - h * x0) + trapezoid (map (Rmult c) (y1 :: ys)) (map (Rmult h) (x1 :: xs))).
  rewrite IH by (auto; cbn in *; lia).
  change (trapezoid (y0 :: y1 :: ys) (x0 :: x1 :: xs))
    with ((y0 + y1) / 2 * (x1 - x0) + trapezoid (y1 :: ys) (x1 :: xs)). field.
Qed.
Definition blade_env : penv R := MkPE (fun _ => Err KeyError) trapezoid (fun _ _ _ => 0) 1.
Definition slow : aero_state R := MkAero [("V_mag", 15 / 2); ("rho", 1 / 400); ("alpha", 0)] None.

(** *** Set by J *)
Lemma blade_run cg c : List.length c = 2%nat ->
  exists m g q s', make_pgeom (with_memory m blade_env) (Some "English") None demo_prop = Ok g /\
    run_prop (with_memory m blade_env) cg (Some slow) (Some [("J", PNum (/ 2))]) g (init_pstate g) = (Ok q, s') /\
    p_CL s' = c /\ p_n s' = 15.
Proof.
  intros Hc. destruct (demo_make blade_env (Some "English") None) as (g & Hg & Hl & _).
  pose proof (demo_stations _ _ _ _ Hg) as Hz. pose proof PI_gt_3 as Hpi.
  destruct (C52_lemma blade_env (Some "English") None demo_prop g cg slow (15 / 2) (1 / 400) (/ 2) c Hg) as (m & q & s' & Hr & H1 & H2 & H3);
  try reflexivity.
  - left. cbn. unfold degrees. replace (0 * PI / 180) with 0 by field. rewrite cos_0. lra.
  - lra.
  - lra.
  - cbn. lra.
  - cbn. lia.
  - cbn. lia.
  - intros K. rewrite K in Hl. discriminate.
  - discriminate.
  - intros z Hin. destruct (Hz z Hin) as (Z1 & Z2 & Z3). split; [lra|]. split; [exact Z2|].
    rewrite Z3, atan2_pos by (apply Rmult_lt_0_compat; lra).
    replace (1 / 2) with (/ 2) by lra. unfold Rabs. destruct (Rcase_abs _); lra.
  - lia.
  - exists m, g, q, s'. split; [exact Hg|]. split; [exact Hr|]. split; [exact H1|]. rewrite H2. cbn [demo_prop pr_diameter]. lra.
Qed.

(** *** Searches that stop at the first trial *)
Section SetOp.
  Context {T : Type} {N : num_ops T}.
  Lemma find_coefficients_op E g n J a b a' b' (s s' : pstate T) :
    find_coefficients E g (set_op n J a b s) = (Ok tt, s') ->
    find_coefficients E g (set_op n J a' b' s) = (Ok tt, set_op n J a' b' s').
  Proof.
    unfold find_coefficients. cbn [set_op p_ei p_J p_clock]. destruct (last_of _) as [sl|]; [|discriminate].
    destruct (find_ei _ _ _ _ _ _ _ _ _) as [[ei clk]|e]; [|discriminate].
    intros H. apply pair_equal_spec in H. destruct H as [_ <-]. reflexivity.
  Qed.
End SetOp.

Definition with_motor (mo : option (motor R)) (g : pgeom R) : pgeom R :=
  MkPG (pg_name g) (pg_pos g) (pg_d g) (pg_hd g) (pg_theta g) (pg_gamma g) (pg_forward g) (pg_rot g)
       (pg_stations g) (pg_k g) mo (pg_wing g) (pg_units g).
(** [demo_prop] with an electric motor of no-load current [io] *)
Definition motor_prop (io : R) : prop R :=
  MkProp "main" (V3 1 0 0) 0 0 2 1 (1 / 5) 2 (VStr "CCW") [("type", VStr "default")] [("type", VStr "default")]
    [("has_motor", VBool true); ("motor_kv", VNum 1000); ("motor_resistance", VNum (1 / 5));
     ("motor_no_load_current", VNum io); ("gear_reduction", VNum 1); ("battery_resistance", VNum (1 / 2));
     ("battery_voltage", VNum 10); ("speed_control_resistance", VNum (3 / 10))] [].
Definition demo_motor (io : R) : motor R := MkMotor 1000 (1 / 5) io 1 (1 / 2) 10 (3 / 10).
Lemma motor_make E u wp g io : make_pgeom E u wp demo_prop = Ok g ->
  make_pgeom E u wp (motor_prop io) = Ok (with_motor (Some (demo_motor io)) g).
Proof.
  unfold make_pgeom. change (zetas (motor_prop io)) with (zetas demo_prop).
  destruct (zetas demo_prop) as [zs|]; [|discriminate]. unfold rbind.
  change (PropModel.coefficients (motor_prop io) zs) with (PropModel.coefficients demo_prop zs).
  destruct (PropModel.coefficients demo_prop zs) as [c|]; [|discriminate].
  change (pitch E (motor_prop io)) with (pitch E demo_prop). destruct (pitch E demo_prop) as [b|]; [|discriminate].
  change (chord E (motor_prop io) zs) with (chord E demo_prop zs). destruct (chord E demo_prop zs) as [cb|]; [|discriminate].
  intros H. apply (f_equal (fun o => match o with Ok y => y | Err _ => g end)) in H.
  change (make_motor (motor_prop io)) with (@Ok (option (motor R)) (Some (demo_motor io))).
  rewrite <- H. reflexivity.
Qed.

(** the blade-element solve at 15 revolutions per second *)
Lemma trial_15 c : List.length c = 2%nat -> exists m g v s0 s3,
  make_pgeom (with_memory m blade_env) (Some "English") None demo_prop = Ok g /\
  s0 = set_flow_p v (1 / 400) (15 / 2) (init_pstate g) /\
  v = freestream 1 (entry (an slow) "alpha") (entry (an slow) "beta") /\
  find_coefficients (with_memory m blade_env) g (set_op 15 (/ 2) None None s0) = (Ok tt, s3) /\ p_CL s3 = c.
Proof.
  intros Hc. destruct (blade_run (V3 0 0 0) c Hc) as (m & g & q & s' & Hg & Hr & H1 & H2).
  exists m, g. do 2 eexists.
  apply run_prop_steps in Hr. destruct Hr as (s1 & s2 & s3 & K1 & K2 & K3 & _ & Es).
  exists s3. split; [exact Hg|]. split; [reflexivity|]. split; [reflexivity|].
  destruct (make_pgeom_data _ _ _ _ _ Hg) as (_ & _ & Ed & _ & En & _).
  assert (E1 : s1 = set_flow_p (freestream 1 (entry (an slow) "alpha") (entry (an slow) "beta")) (1 / 400) (15 / 2) (init_pstate g)).
  { unfold p_set_aero, opt_truthy in K1. cbn [aero_truthy slow dtruthy an orb] in K1.
    cbn [dget String.eqb Ascii.eqb Bool.eqb] in K1. unfold smod in K1. apply pair_equal_spec in K1. destruct K1 as [_ <-].
    rewrite !dgetd_entry. reflexivity. }
  assert (E2 : s2 = set_op 15 (/ 2) None None s1).
  { rewrite En in K2. cbn [demo_prop pr_name] in K2.
    rewrite (set_by_J (pg_d g) (/ 2) (15 / 2) "main") in K2.
    - apply pair_equal_spec in K2. destruct K2 as [_ <-]. f_equal. rewrite Ed. cbn [demo_prop pr_diameter]. lra.
    - lra.
    - lra.
    - rewrite Ed. cbn. lra.
    - discriminate.
    - rewrite E1. reflexivity. }
  rewrite E2 in K3. cbn [set_op p_power p_throttle] in K3. rewrite E1 in K3. split; [exact K3|].
  rewrite Es in H1. destruct q as [[[? ?] ?] ?]. exact H1.
Qed.

(** resolving the forces never fails in this flow *)
Lemma demo_resolve g cg s : vdot (pg_forward g) (pg_forward g) = 1 ->
  p_v s = freestream 1 (entry (an slow) "alpha") (entry (an slow) "beta") -> exists q, resolve (T := R) g cg s = Ok q.
Proof.
  intros Hu Hv. unfold resolve.
  assert (Hv1 : vdot (p_v s) (p_v s) = 1).
  { rewrite Hv. eapply airflow_1_unit. apply freestream_airflow; [lra|]. apply not_both_right. left. cbn. unfold degrees.
    replace (0 * PI / 180) with 0 by field. rewrite cos_0. lra. }
  rewrite (vec_angle_ok _ _ Hu (vopp_unit _ Hv1)). unfold rbind.
  destruct (acos _ =? n0)%num; eexists; reflexivity.
Qed.
Lemma zero_small : nltb (nabs (0 : R)) rate_error = true.
Proof.
  rewrite rate_error_small. rnum. rewrite Rabs_R0. apply Rltb_true. apply Rinv_0_lt_compat. apply pow_lt. lra.
Qed.


Section Steps.
  Context {T : Type} {N : num_ops T}.
  Lemma run_prop_intro E cg aero ps g (s s1 s2 s3 : pstate T) q :
    p_set_aero aero s = (Ok tt, s1) -> p_set_prop (pg_d g) (local_state ps (pg_name g)) s1 = (Ok tt, s2) ->
    (p_power s2 <> None \/ p_throttle s2 <> None) -> state_from_power E g s2 = (Ok tt, s3) ->
    resolve g cg (find_Vi (pg_stations g) s3) = Ok q ->
    run_prop E cg aero ps g s = (Ok q, set_forces q (find_Vi (pg_stations g) s3)).
  Proof.
    intros H1 H2 Hp H3 H4. unfold run_prop, sbind. rewrite H1, H2. unfold p_calc_forces, sbind, sget.
    assert (E1 : (match p_power s2, p_throttle s2 with None, None => find_coefficients E g | _, _ => state_from_power E g end) s2
                 = (Ok tt, s3)).
    { destruct (p_power s2), (p_throttle s2); auto. destruct Hp; congruence. }
    rewrite E1. unfold smod, slift. rewrite H4. reflexivity.
  Qed.
  Lemma find_rate_hit fuel f (s s' : pstate T) y : f (p_n s) s = (Ok y, s') -> nltb (nabs y) rate_error = true ->
    find_rate fuel f s = (Ok (p_n s), s').
  Proof. intros H Hy. unfold find_rate, sbind, sget. rewrite H, Hy. reflexivity. Qed.
End Steps.


Lemma trial_state E (g : pgeom R) v s0 s3 :
  s0 = set_flow_p v (1 / 400) (15 / 2) (init_pstate g) ->
  find_coefficients E g (set_op 15 (/ 2) None None s0) = (Ok tt, s3) ->
  p_rho s3 = 1 / 400 /\ p_Vinf s3 = 15 / 2 /\ p_v s3 = v /\ p_n s3 = 15 /\ p_J s3 = / 2.
Proof.
  intros Es HF. pose proof (find_coefficients_core _ _ _ _ _ HF) as K. unfold core in K.
  subst s0. cbn [set_op set_flow_p p_rho p_Vinf p_v p_n p_J p_power p_throttle] in K.
  apply pair_equal_spec in K. destruct K as [K K1]. apply pair_equal_spec in K. destruct K as [K K2].
  apply pair_equal_spec in K. destruct K as [K K3]. apply pair_equal_spec in K. destruct K as [K _].
  apply pair_equal_spec in K. destruct K as [K _]. apply pair_equal_spec in K. destruct K as [K4 K5]. auto.
Qed.
Lemma slow_flow (g : pgeom R) : p_set_aero (Some slow) (init_pstate g) =
  (Ok tt, set_flow_p (freestream 1 (entry (an slow) "alpha") (entry (an slow) "beta")) (1 / 400) (15 / 2) (init_pstate g)).
Proof.
  unfold p_set_aero, opt_truthy. cbn [aero_truthy slow dtruthy an orb].
  cbn [dget String.eqb Ascii.eqb Bool.eqb]. unfold smod. rewrite !dgetd_entry. reflexivity.
Qed.
Lemma init_rate (g : pgeom R) v rho V : p_n (set_flow_p v rho V (init_pstate g)) = 15.
Proof. reflexivity. Qed.
Lemma find_coefficients_motor E mo (g : pgeom R) : find_coefficients E (with_motor mo g) = find_coefficients E g.
Proof. reflexivity. Qed.


Lemma J_15 : ndiv (15 / 2) (nmul 15 1) = / 2.
Proof. rnum. lra. Qed.
Lemma rate_15 E (g : pgeom R) (s0 s3 : pstate R) a J0 pw th : pg_d g = 1 -> p_Vinf s0 = 15 / 2 ->
  find_coefficients E g (set_op 15 (/ 2) None None s0) = (Ok tt, s3) ->
  solve_at_rate E g 15 (set_op a J0 pw th s0) = (Ok tt, set_op 15 (/ 2) pw th s3).
Proof.
  intros Hd HV HF. unfold solve_at_rate, sbind, smod. cbn [set_op p_Vinf p_power p_throttle]. rewrite HV, Hd.
  rewrite J_15.
  exact (find_coefficients_op E g 15 (/ 2) None None pw th _ _ HF).
Qed.

Lemma past_division {A} (x y : R) (k : R -> st (pstate R) A) s : y <> 0 -> sbind (slift (pydiv x y)) k s = k (x / y) s.
Proof.
  intros H. unfold sbind, slift, pydiv. rnum. replace (Reqb y 0) with false; [reflexivity|].
  symmetry. destruct (Reqb y 0) eqn:K; [|reflexivity]. apply Reqb_true in K. contradiction.
Qed.

Lemma power_run : exists m g P q s',
  make_pgeom (with_memory m blade_env) (Some "English") None demo_prop = Ok g /\
  run_prop (with_memory m blade_env) (V3 0 0 0) (Some slow) (Some [("brake_power", PNum P)]) g (init_pstate g) = (Ok q, s') /\
  p_n s' = 15 /\ p_CL s' = [1 / 2; 1 / 3].
Proof.
  destruct (trial_15 [1 / 2; 1 / 3] eq_refl) as (m & g & v & s0 & s3 & Hg & Es0 & Ev & HF & HC).
  remember (with_memory m blade_env) as E eqn:HE.
  destruct (make_pgeom_data _ _ _ _ _ Hg) as (Ef & _ & Ed & _ & En & _). cbn [demo_prop pr_diameter] in Ed.
  destruct (trial_state _ _ _ _ _ Es0 HF) as (X1 & X2 & X3 & X4 & X5).
  set (P := (p_rho s3 * cube 15 * fifth (pg_d g) * p_CP s3)%num).
  set (s4 := set_op 15 (/ 2) (Some P) None s3) in *.
  destruct (demo_resolve g (V3 0 0 0) (find_Vi (pg_stations g) s4)) as (q & Hq).
  { rewrite Ef. apply propeller_axis_unit. }
  { rewrite <- Ev, <- X3. reflexivity. }
  exists m, g, P, q, (set_forces q (find_Vi (pg_stations g) s4)). rewrite <- HE. split; [exact Hg|]. split.
  - eapply run_prop_intro.
    + exact (slow_flow g).
    + rewrite En. cbn [demo_prop pr_name].
      change (local_state (Some [("brake_power", PNum P)]) "main") with (Some (PDict [("brake_power", PNum P)])).
      rewrite <- Ev, <- Es0. unfold p_set_prop. cbn [dget String.eqb Ascii.eqb Bool.eqb].
      unfold sbind, smod, slift, vnum. reflexivity.
    + left. discriminate.
    + assert (R15 : p_n (set_op (p_n (set_op (p_n s0) (p_J s0) None None s0)) (p_J (set_op (p_n s0) (p_J s0) None None s0)) (Some P) None
          (set_op (p_n s0) (p_J s0) None None s0)) = 15) by (rewrite Es0; reflexivity).
      unfold state_from_power. unfold sbind at 1. unfold sget at 1. unfold sbind at 1. cbn [p_throttle p_power set_op].
      rewrite past_division; [|cbn [set_op p_n] in R15 |- *; rewrite R15, Ed; rnum; lra].
      match goal with |- context [find_rate _ ?f ?s] => pose proof (find_rate_hit (pe_fuel E) f s s4 0) as K end.
      rewrite K; clear K.
      * cbn [set_op p_n] in R15 |- *. rewrite R15. unfold smod, s4. cbn [set_op p_Vinf p_power p_throttle]. rewrite X2, Ed.
        rewrite J_15. reflexivity.
      * cbn [set_op p_n] in R15 |- *. rewrite R15. unfold zero_power_difference, sbind.
        assert (HV : p_Vinf s0 = 15 / 2) by (rewrite Es0; reflexivity).
        pose proof (rate_15 E g s0 s3 15 (p_J s0) (Some P) None Ed HV HF) as K.
        match goal with |- context [solve_at_rate E g 15 ?s] => change s with (set_op 15 (p_J s0) (Some P) None s0) end.
        rewrite K.
        unfold sget, sret. f_equal. f_equal. cbn [set_op p_rho p_n p_CP]. fold P. unfold P. rnum. lra.
      * exact zero_small.
    + exact Hq.
  - split; [destruct q as [[[? ?] ?] ?]; reflexivity|]. rewrite <- HC. destruct q as [[[? ?] ?] ?]; reflexivity.
Qed.

Lemma throttle_run : exists m io g q s',
  make_pgeom (with_memory m blade_env) (Some "English") None (motor_prop io) = Ok g /\
  run_prop (with_memory m blade_env) (V3 0 0 0) (Some slow) (Some [("electric_throttle", PNum 1)]) g (init_pstate g) = (Ok q, s') /\
  p_n s' = 15 /\ p_CL s' = [1 / 2; 1 / 3].
Proof.
  destruct (trial_15 [1 / 2; 1 / 3] eq_refl) as (m & g0 & v & s0 & s3 & Hg0 & Es0 & Ev & HF & HC).
  set (Q := (p_rho s3 * (15 * 15) * fifth (pg_d g0) * p_Cl s3)%num).
  set (io := (91 / 10 - Q / (70432 / 10000 / 1000))).
  remember (with_memory m blade_env) as E eqn:HE.
  pose proof (motor_make _ _ _ _ io Hg0) as Hg.
  set (g := with_motor (Some (demo_motor io)) g0) in *.
  destruct (make_pgeom_data _ _ _ _ _ Hg) as (Ef & _ & Ed & _ & En & _). cbn [motor_prop pr_diameter] in Ed.
  assert (Eu : pg_units g = Some "English").
  { exact (make_pgeom_units _ _ _ _ _ Hg). }
  assert (Es0' : s0 = set_flow_p v (1 / 400) (15 / 2) (init_pstate g)) by (rewrite Es0; reflexivity).
  rewrite <- (find_coefficients_motor E (Some (demo_motor io)) g0) in HF. fold g in HF.
  destruct (trial_state _ _ _ _ _ Es0' HF) as (X1 & X2 & X3 & X4 & X5).
  set (s4 := set_op 15 (/ 2) None (Some 1) s3) in *.
  destruct (demo_resolve g (V3 0 0 0) (find_Vi (pg_stations g) s4)) as (q & Hq).
  { rewrite Ef. apply propeller_axis_unit. }
  { rewrite <- Ev, <- X3. reflexivity. }
  assert (Hm : motor_torque g (demo_motor io) 1 15 = Ok Q).
  { unfold motor_torque. rewrite Eu. cbn [String.eqb Ascii.eqb Bool.eqb demo_motor mo_kv mo_rm mo_io mo_gr mo_rb mo_eo mo_rc].
    f_equal. unfold io. rnum. unfold Rdec. simpl. lra. }
  exists m, io, g, q, (set_forces q (find_Vi (pg_stations g) s4)). rewrite <- HE. split; [exact Hg|]. split.
  - eapply run_prop_intro.
    + exact (slow_flow g).
    + rewrite En. cbn [motor_prop pr_name].
      change (local_state (Some [("electric_throttle", PNum 1)]) "main") with (Some (PDict [("electric_throttle", PNum 1)])).
      rewrite <- Ev, <- Es0'. unfold p_set_prop. cbn [dget String.eqb Ascii.eqb Bool.eqb].
      unfold sbind, smod, slift, vnum. reflexivity.
    + right. discriminate.
    + assert (R15 : p_n (set_op (p_n (set_op (p_n s0) (p_J s0) None None s0)) (p_J (set_op (p_n s0) (p_J s0) None None s0)) None (Some 1)
          (set_op (p_n s0) (p_J s0) None None s0)) = 15) by (rewrite Es0; reflexivity).
      unfold state_from_power. unfold sbind at 1. unfold sget at 1. unfold sbind at 1. cbn [p_throttle p_power set_op].
      change (pg_motor g) with (Some (demo_motor io)). cbv iota.
      rewrite past_division; [|cbn [set_op p_n] in R15 |- *; rewrite R15, Ed; rnum; lra].
      match goal with |- context [find_rate _ ?f ?s] => pose proof (find_rate_hit (pe_fuel E) f s s4 0) as K end.
      rewrite K; clear K.
      * cbn [set_op p_n] in R15 |- *. rewrite R15. unfold smod, s4. cbn [set_op p_Vinf p_power p_throttle]. rewrite X2, Ed.
        rewrite J_15. reflexivity.
      * cbn [set_op p_n] in R15 |- *. rewrite R15. unfold zero_torque_difference, sbind.
        assert (HV : p_Vinf s0 = 15 / 2) by (rewrite Es0; reflexivity).
        pose proof (rate_15 E g s0 s3 15 (p_J s0) None (Some 1) Ed HV HF) as K.
        match goal with |- context [solve_at_rate E g 15 ?s] => change s with (set_op 15 (p_J s0) None (Some 1) s0) end.
        rewrite K.
        unfold sget, sret, slift. cbn [set_op p_rho p_n p_Cl]. rewrite Hm. f_equal. f_equal. unfold Q.
        change (pg_d g) with (pg_d g0). rnum. lra.
      * exact zero_small.
    + exact Hq.
  - split; [destruct q as [[[? ?] ?] ?]; reflexivity|]. rewrite <- HC. destruct q as [[[? ?] ?] ?]; reflexivity.
Qed.

(** *** A wing point in the slipstream *)
Definition slip_points : list (vec3 R) := [V3 (- 1) (1 / 4) 0].
Lemma slip_run c : List.length c = 2%nat -> exists m g r out s',
  let E := with_memory m blade_env in
  make_props E demo_plane (Some slip_points) = Ok [g] /\
  make_pgeom E (Some "English") (Some slip_points) demo_prop = Ok g /\
  props_solve E (V3 0 0 0) (Some 1%nat) (Some slow) (Some [("J", PNum (/ 2))]) [g] (props_after E (Some 1%nat) [g] []) =
    (Ok (r, Some out), [s']) /\
  Forall (fun b => 0 <= b_Vx b) (prop_rows g s') /\ p_CL s' = c /\
  p_einf s' = map (fun z => Ratan2 (/ 2) (PI * z_zeta z)) (pg_stations g) /\
  p_ei s' = map (fun z => z_beta z - Ratan2 (/ 2) (PI * z_zeta z)) (pg_stations g).
Proof.
  intros Hc. destruct (demo_make blade_env (Some "English") (Some slip_points)) as (g & Hg & Hl & Hm0).
  pose proof (demo_stations _ _ _ _ Hg) as Hz. pose proof PI_gt_3 as Hpi.
  destruct (make_pgeom_data _ _ _ _ _ Hg) as (_ & _ & Ed & _ & En & _). cbn [demo_prop pr_diameter pr_name] in Ed, En.
  assert (Hset : forall s : pstate R, p_Vinf s = 15 / 2 ->
     p_set_prop (pg_d g) (local_state (Some [("J", PNum (/ 2))]) (pg_name g)) s = (Ok tt, set_op 15 (/ 2) None None s)).
  { intros s HV. rewrite En, (set_by_J (pg_d g) (/ 2) (15 / 2) "main"); [|lra|lra|rewrite Ed; lra|discriminate|exact HV].
    do 2 f_equal. rewrite Ed. lra. }
  destruct (C52_core_angles blade_env (Some "English") (Some slip_points) demo_prop g (V3 0 0 0) slow (Some [("J", PNum (/ 2))])
     (15 / 2) (1 / 400) 15 (/ 2) c Hg) as (m & q & s' & Hr & (H1 & H2 & H3) & H4 & H5); try reflexivity; auto.
  - left. cbn. unfold degrees. replace (0 * PI / 180) with 0 by field. rewrite cos_0. lra.
  - cbn. lra.
  - cbn. lia.
  - intros K. rewrite K in Hl. discriminate.
  - intros z Hin. destruct (Hz z Hin) as (Z1 & Z2 & Z3). split; [lra|]. split; [exact Z2|].
    rewrite Z3, atan2_pos by (apply Rmult_lt_0_compat; lra).
    replace (1 / 2) with (/ 2) by lra. unfold Rabs. destruct (Rcase_abs _); lra.
  - lia.
  - assert (Hmp : make_props (with_memory m blade_env) demo_plane (Some slip_points) = Ok [g]).
    { unfold make_props. cbn [demo_plane a_props map snd rmap].
      change (get_units demo_plane) with (@Ok (option string) (Some "English")). unfold rbind.
      assert (Hg' : make_pgeom (with_memory m blade_env) (Some "English") (Some slip_points) demo_prop = Ok g) by exact Hg.
      match goal with |- context [make_pgeom ?e ?u ?p ?q] => replace (make_pgeom e u p q) with (@Ok (pgeom R) g) end.
      reflexivity. }
    assert (Hps : exists r out, props_solve (with_memory m blade_env) (V3 0 0 0) (Some 1%nat) (Some slow)
      (Some [("J", PNum (/ 2))]) [g] (map init_pstate [g]) = (Ok (r, Some out), [s'])).
    { unfold props_solve, calc_forces, sbind. cbn [map run_props]. rewrite Hr. destruct q as [[[F M] Th] l].
      cbn [last_of List.length pred nth_error].
      unfold velocity_field. cbn [opt_truthy aero_truthy slow dtruthy an orb].
      cbn [dget String.eqb Ascii.eqb Bool.eqb]. unfold slift, sget, sret. eexists _, _. reflexivity. }
    destruct Hps as (r & out & Hps). exists m, g, r, out, s'. cbv zeta. split; [exact Hmp|]. split; [exact Hg|].
    split; [exact Hps|]. split; [|auto].
    assert (Hs : sized g (init_pstate g)) by (unfold sized; cbn [init_pstate p_ei]; apply repeat_length).
    destruct (solved_rows _ _ _ _ _ _ _ _ Hr Hs) as (_ & R2 & _).
    apply Forall_forall. intros b Hb. assert (Hb' : In (b_Vx b) (map (fun b => b_Vx b) (prop_rows g s'))) by now apply in_map.
    rewrite R2 in Hb'.
    assert (EV : p_Vxi s' = p_Vxi (find_Vi (pg_stations g) s')).
    { apply run_prop_steps in Hr. destruct Hr as (s1 & s2 & s3 & _ & _ & _ & _ & Es). rewrite Es.
      destruct q as [[[? ?] ?] ?]. reflexivity. }
    rewrite EV in Hb'. cbn [find_Vi p_Vxi] in Hb'. rewrite H4, H5, H2 in Hb'.
    assert (Hrr : forall z, In z (pg_stations g) -> 0 <= z_r z).
    { destruct (make_pgeom_stations _ _ _ _ _ Hg) as [Hst _]. rewrite Forall_forall in Hst. intros z Hin. rewrite (Hst z Hin), Ed.
      destruct (Hz z Hin) as [Z1 _]. lra. }
    assert (Hm1 : forall z, In z (pg_stations g) -> 1 / 5 <= z_zeta z).
    { intros z Hin. destruct (Hm0 z Hin) as ([-> | ->] & _); lra. }
    clear -Hb' Hz Hpi Hrr Hm1. rename Hm1 into Hm0. revert Hb' Hz Hrr Hm0. generalize (pg_stations g). intros l.
    induction l as [|z l IH]; intros Hb Hz Hrr Hm0; [destruct Hb|]. cbn in Hb. destruct Hb as [Hb|Hb].
    + destruct (Hz z (or_introl eq_refl)) as (Z1 & _ & Z3). specialize (Hrr z (or_introl eq_refl)). rewrite <- Hb. rnum.
      rewrite Z3, atan2_pos by (apply Rmult_lt_0_compat; lra). replace (1 / 2) with (/ 2) by lra.
      assert (Hx : 0 < / 2 / (PI * z_zeta z) < 1).
      { split; [apply Rdiv_lt_0_compat; [lra|apply Rmult_lt_0_compat; lra]|].
        apply (Rmult_lt_reg_r (PI * z_zeta z)); [apply Rmult_lt_0_compat; lra|]. unfold Rdiv at 1.
        rewrite Rmult_assoc, Rinv_l by (apply Rgt_not_eq, Rmult_lt_0_compat; lra).
        specialize (Hm0 z (or_introl eq_refl)). assert (3 * z_zeta z < PI * z_zeta z) by (apply Rmult_lt_compat_r; lra). lra. }
      set (e := atan (/ 2 / (PI * z_zeta z))).
      assert (He : 0 < e < PI / 4).
      { unfold e. rewrite <- atan_0, <- atan_1. split; apply atan_increasing; lra. }
      pose proof PI_4 as Hpi4.
      replace (e + 369 / 10000 - e) with (369 / 10000) by ring.
      replace (369 / 10000 + e) with (e + 369 / 10000) by ring.
      assert (S1 : 0 < sin (369 / 10000)) by (apply sin_gt_0; lra).
      assert (S2 : 0 < cos e) by (apply cos_gt_0; lra).
      assert (S3 : 0 < cos (e + 369 / 10000)) by (apply cos_gt_0; lra).
      apply Rmult_le_pos; [|lra]. apply Rmult_le_pos; [|apply Rlt_le, Rinv_0_lt_compat; exact S2].
      apply Rmult_le_pos; [|lra]. apply Rmult_le_pos; [lra|exact Hrr].
    + apply IH; auto; intros z' Hz'; [apply Hz|apply Hrr|apply Hm0]; now right.
Qed.
