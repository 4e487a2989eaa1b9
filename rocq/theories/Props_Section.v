(** Lift and drag of the blade sections (C70) and the equation for the induced angle (C53).
    Vocabulary: Spec_Section.v. *)
From Coq Require Import Reals ZArith String Bool Arith Lia Lra List.
From Verif Require Import Base Num RVec Geometry Grid LLModel PropModel Spec_Grid Spec_LL Spec_Prop
     Spec_Blade Spec_Stl Spec_Section Prop_state LL_R LL_thm2 Prop_thm Prop_thm2 Prop_thm3 Prop_thm4 Prop_thm5 Prop_thm6
     Prop_thm7 Prop_thm8 Prop_thm10 Prop_thm11 Section_thm Demo_Blade Demo_Section.
Import ListNotations.
Local Open Scope string_scope.
Local Open Scope R_scope.

(** *** C70 *)
(** Whatever calls went before, every row of the blade distributions of a solved propeller
    obeys the laws of lift and drag of its section. *)
Theorem C70_section_laws :
  forall E cg n aero ps (gs : list (pgeom R)) h r ss' u wp p g s',
    props_solve E cg n aero ps gs (props_after E n gs h) = (Ok r, ss') ->
    In (g, s') (combine gs ss') -> make_pgeom E u wp p = Ok g -> 0 < pr_diameter p ->
    exists placed, placed_on p (map (@z_zeta R) (pg_stations g)) placed /\
      Forall (fun b => obeys_section (section_at placed (2 * b_r b / pr_diameter p)) b) (prop_rows g s').
Proof.
  intros E cg n aero ps gs h r ss' u wp p g s' H Hin Hg Hd.
  destruct (solve_turn _ _ _ _ _ _ _ _ _ H (props_after_length E n gs h) g s' Hin) as (s & Hs & Hr).
  exact (C70_lemma _ _ _ _ _ _ _ _ _ _ _ Hg Hd Hr (Forall2_combine _ _ _ _ _ (props_after_sized E n gs h) Hs)).
Qed.
Print Assumptions C70_section_laws.
(** Lift is proportional to the angle of attack up to two degrees beyond the delay. *)
Theorem C70_proportional_lift :
  forall p S b, blade_result p b -> one_airfoil p S -> 0 < pr_diameter p ->
    let alpha := degrees (b_alpha b) in
    alpha <> 0 -> Rabs alpha - stall_delay S (b_chord b / b_r b) < degrees 2 -> b_cl b = s_slope S * alpha.
Proof. intros p S b H1 H2 H3. exact (proportional S b (result_obeys p S b H1 H2 H3)). Qed.
Print Assumptions C70_proportional_lift.
(** At the delayed stall angle lift is the maximum lift plus that of the delay. *)
Theorem C70_lift_at_stall :
  forall p S b, blade_result p b -> one_airfoil p S -> 0 < pr_diameter p ->
    let dl := stall_delay S (b_chord b / b_r b) in
    degrees (b_alpha b) = stall_up S + dl -> 0 < stall_up S + dl ->
    degrees 2 <= stall_up S < PI / 2 -> s_slope S <> 0 -> b_cl b = s_max S + s_slope S * dl.
Proof. intros p S b H1 H2 H3. exact (at_stall S b (result_obeys p S b H1 H2 H3)). Qed.
Print Assumptions C70_lift_at_stall.
(** A section broadside to the air has the drag coefficient 1.29. *)
Theorem C70_broadside_drag :
  forall p S b, blade_result p b -> one_airfoil p S -> 0 < pr_diameter p ->
    Rabs (degrees (b_alpha b)) = PI / 2 -> stall_up S + Rabs (stall_delay S (b_chord b / b_r b)) < PI / 2 ->
    0 <= stall_up S -> b_cd b = 129 / 100.
Proof. intros p S b H1 H2 H3. exact (broadside S b (result_obeys p S b H1 H2 H3)). Qed.
Print Assumptions C70_broadside_drag.
(** The lift of a symmetric section changes sign with the angle of attack... *)
Theorem C70_symmetric_section_lift :
  forall p p' S b b', blade_result p b -> one_airfoil p S -> 0 < pr_diameter p ->
    blade_result p' b' -> one_airfoil p' S -> 0 < pr_diameter p' ->
    s_zero_lift S = 0 -> s_slope S <> 0 -> 0 < stall_up S < PI / 2 ->
    b_chord b / b_r b = b_chord b' / b_r b' -> degrees (b_alpha b) <> 0 ->
    degrees (b_alpha b') = - degrees (b_alpha b) -> b_cl b' = - b_cl b.
Proof.
  intros p p' S b b' H1 H2 H3 H1' H2' H3'.
  exact (odd_lift S b b' (result_obeys p S b H1 H2 H3) (result_obeys p' S b' H1' H2' H3')).
Qed.
Print Assumptions C70_symmetric_section_lift.
(** ... but its drag is not the same at opposite angles: the stall limits used for drag are
    [delay + stall] and [delay - stall], so that the blade stalls earlier at negative angles. *)
Theorem C70_symmetric_section_drag_differs :
  forall p p' S b b', blade_result p b -> one_airfoil p S -> 0 < pr_diameter p ->
    blade_result p' b' -> one_airfoil p' S -> 0 < pr_diameter p' ->
    s_zero_lift S = 0 -> s_cd1 S = 0 -> s_cd2 S = 0 ->
    b_chord b / b_r b = b_chord b' / b_r b' ->
    let dl := stall_delay S (b_chord b / b_r b) in let alpha := degrees (b_alpha b) in
    0 < stall_up S - dl < alpha -> alpha < stall_up S + dl -> alpha < PI / 2 ->
    s_cd0 S <= 129 / 100 * (sin (stall_up S - dl)) ^ 2 ->
    degrees (b_alpha b') = - alpha -> b_cd b < b_cd b'.
Proof.
  intros p p' S b b' H1 H2 H3 H1' H2' H3'.
  exact (uneven_drag S b b' (result_obeys p S b H1 H2 H3) (result_obeys p' S b' H1' H2' H3')).
Qed.
Print Assumptions C70_symmetric_section_drag_differs.

(** *** C53 *)
(** After a successful solve all nodes but at most two have settled: two trial angles give
    imbalances of the vortex equation that differ by at most 1e-11, and the induced angle is
    one of them (turned towards the pitch, or 0.3). *)
Theorem C53_last_trials :
  forall E cg n aero ps (gs : list (pgeom R)) h r ss' u wp p g s' bl rest,
    props_solve E cg n aero ps gs (props_after E n gs h) = (Ok r, ss') ->
    In (g, s') (combine gs ss') -> make_pgeom E u wp p = Ok g -> 0 < pr_diameter p ->
    Forall (fun b => b_r b <> 0) (prop_rows g s') -> prop_rows g s' = (rest ++ [bl])%list ->
    exists placed settled, placed_on p (map (@z_zeta R) (pg_stations g)) placed /\ (unsettled settled <= 2)%nat /\
      Forall2 (fun b => last_trials (pr_blades p) (pr_diameter p) (degrees (b_pitch bl))
                          (section_at placed (2 * b_r b / pr_diameter p)) b) (prop_rows g s') settled.
Proof.
  intros E cg n aero ps gs h r ss' u wp p g s' bl rest H Hin Hg Hd H0 El.
  destruct (solve_turn _ _ _ _ _ _ _ _ _ H (props_after_length E n gs h) g s' Hin) as (s & Hs & Hr).
  exact (C53_trials_lemma _ _ _ _ _ _ _ _ _ _ _ _ _ Hg Hd Hr (Forall2_combine _ _ _ _ _ (props_after_sized E n gs h) Hs) H0 El).
Qed.
Print Assumptions C53_last_trials.

(** But the vortex equation itself need not hold: whatever [K], a first solve at J = 1/2 may
    leave an imbalance larger than [K] (two trials agree, and that is all that is asked). *)
Theorem C53_equation_not_enforced_refuted :
  forall K, exists E u wp cg aero ps p g r s' rest bl b,
    make_pgeom E u wp p = Ok g /\ props_solve E cg (Some 1%nat) aero ps [g] (props_after E (Some 1%nat) [g] []) = (Ok r, [s']) /\
    prop_rows g s' = (rest ++ [bl])%list /\ In b (prop_rows g s') /\
    K < Rabs (vortex_imbalance (pr_blades p) (pr_diameter p) (degrees (b_pitch bl)) (b_r b) (b_chord b)
                (degrees (b_advance b)) (degrees (b_induced b)) (b_cl b)).
Proof.
  intros K. set (c := (Rabs K + 10) * 2000).
  destruct (slip_run [c; 0] eq_refl) as (m & g & r & out & s' & _ & Hg & Hs & _ & C1 & C2 & C3). cbv zeta in *.
  set (E := with_memory m blade_env) in *.
  destruct (solve_turn _ _ _ _ _ _ _ _ _ Hs (props_after_length E (Some 1%nat) [g] []) g s' (or_introl eq_refl)) as (s & Hi & Hr).
  pose proof (Forall2_combine _ _ _ _ _ (props_after_sized E (Some 1%nat) [g] []) Hi) as Hsz.
  destruct (demo_make E (Some "English") (Some slip_points)) as (g' & Hg' & Hl & Hm). assert (g' = g) by congruence. subst g'.
  pose proof (demo_stations _ _ _ _ Hg) as Hz. pose proof PI_gt_3 as Hpi.
  destruct (solved_rows _ _ _ _ _ _ _ _ Hr Hsz) as (R1 & _ & _).
  destruct (pg_stations g) as [|z0 [|z1 [|? ?]]] eqn:Es; try discriminate Hl. cbn [map] in R1.
  destruct (prop_rows g s') as [|b0 [|b1 [|? ?]]] eqn:Er; try discriminate R1.
  exists E, (Some "English"), (Some slip_points), (V3 0 0 0), (Some slow), (Some [("J", PNum (/ 2))]), demo_prop, g, (r, Some out), s', [b0], b1, b0.
  split; [exact Hg|]. split; [exact Hs|]. split; [exact Er|]. rewrite Er. split; [now left|].
  unfold prop_rows in Er. cbn [find_Vi p_ei p_einf p_alpha p_CL p_CD] in Er. rewrite Es, C1, C2, C3 in Er.
  pose proof (f_equal (fun l => nth_error l 0) Er) as N0. apply nth_blade_rows in N0.
  destruct N0 as (z & e1 & e2 & a & c1 & c2 & W1 & W2 & W3 & W4 & W5 & W6 & F1 & F2 & F3 & F4 & F5 & F6 & F7 & F8).
  cbn [nth_error map] in W1, W2, W3, W5. injection W1 as <-. injection W2 as <-. injection W3 as <-. injection W5 as <-.
  rewrite F1, F2, F4, F5, F7, !deg_rad.
  destruct (Hz z0 (or_introl eq_refl)) as (Z1 & _ & Z3). destruct (Hm z0 (or_introl eq_refl)) as (Z4 & _ & Z5).
  assert (Ee : z_beta z0 - Ratan2 (/ 2) (PI * z_zeta z0) = 369 / 10000).
  { rewrite Z3, atan2_pos by (apply Rmult_lt_0_compat; lra). replace (1 / 2) with (/ 2) by lra. ring. }
  assert (Er0 : z_r z0 = z_zeta z0 / 2).
  { destruct (make_pgeom_stations _ _ _ _ _ Hg) as [Hst _]. rewrite Forall_forall in Hst.
    destruct (make_pgeom_data _ _ _ _ _ Hg) as (_ & _ & Ed & _). rewrite (Hst z0), Ed by (rewrite Es; now left). cbn. lra. }
  assert (Hcb : 3 / 1000 <= z_cb z0).
  { rewrite Z5. assert (4 / 100 <= sqrt (1 - z_zeta z0 * z_zeta z0)); [|lra].
    rewrite <- (sqrt_square (4 / 100)) by lra. apply sqrt_le_1_alt. destruct Z4 as [-> | ->]; lra. }
  rewrite Ee. unfold vortex_imbalance. cbn [pr_blades pr_diameter demo_prop]. rewrite Er0.
  set (ac := INR 2 * z_cb z0 / (16 * (z_zeta z0 / 2)) * c).
  set (t := tip_factor _ _ _). set (sn := sin _).
  assert (Hc : 20000 <= c) by (unfold c; pose proof (Rabs_pos K); lra).
  assert (Ha : 3 / 4000 * c <= ac).
  { unfold ac. apply Rmult_le_compat_r; [lra|]. replace (INR 2 * z_cb z0 / (16 * (z_zeta z0 / 2))) with (z_cb z0 / (4 * z_zeta z0)) by (simpl; field; lra).
    apply (Rmult_le_reg_r (4 * z_zeta z0)); [lra|]. unfold Rdiv at 2. rewrite Rmult_assoc, Rinv_l by lra.
    destruct Z4 as [-> | ->]; lra. }
  assert (Ht : 0 <= t <= 4) by (unfold t, tip_factor; match goal with |- context [acos ?x] => pose proof (acos_bound x) end; pose proof PI_4; lra).
  assert (Htan : 0 <= tan (369 / 10000) <= 1).
  { split; [apply Rlt_le, tan_gt_0; lra|]. rewrite <- tan_PI4. apply Rlt_le, tan_increasing; lra. }
  assert (Hsn : -1 <= sn <= 1) by apply SIN_bound.
  assert (Hprod : t * tan (369 / 10000) * sn <= 4).
  { assert (0 <= t * tan (369 / 10000) <= 4) by (split; [apply Rmult_le_pos; lra|]; replace 4 with (4 * 1) by ring; apply Rmult_le_compat; lra).
    assert (t * tan (369 / 10000) * sn <= t * tan (369 / 10000) * 1) by (apply Rmult_le_compat_l; lra). lra. }
  assert (HK : K <= Rabs K) by apply RRle_abs. pose proof (Rabs_pos K) as HK0.
  eapply Rlt_le_trans; [|apply RRle_abs]. unfold c in Ha. lra.
Qed.
Print Assumptions C53_equation_not_enforced_refuted.

(** *** The hypotheses can be met *)
Lemma alone E cg ps (g : pgeom R) q s' : run_prop E cg (Some slow) ps g (init_pstate g) = (Ok q, s') ->
  exists r, props_solve E cg None (Some slow) ps [g] (props_after E None [g] []) = (Ok r, [s']).
Proof.
  intros H. unfold props_after. cbn [fold_left map]. unfold props_solve, sbind, calc_forces. cbn [run_props].
  rewrite H. destruct q as [[[F M] Th] l]. cbn [last_of]. eexists. reflexivity.
Qed.
Lemma steep_result x m : 1 <= Rabs x -> exists b, blade_result (steep x m) b /\
  b_r b = 1 / 10 /\ b_chord b = 1517 / 100000 /\ degrees (b_alpha b) = x - 3 / 10 * sign x.
Proof.
  intros Hx. destruct (steep_run x m Hx) as (mem & g & q & s' & b0 & b1 & Hg & Hr & Er & A1 & A2 & A3 & _).
  destruct (alone _ _ _ _ _ _ Hr) as (r & Hs).
  exists b0. split; [|auto].
  exists (with_memory mem blade_env), (Some "English"), None, g, (V3 0 0 0), None, (Some slow), (Some [("J", PNum (/ 2))]), [g], [], r, [s'], s'.
  split; [exact Hg|]. split; [exact Hs|]. split; [now left|]. rewrite Er. now left.
Qed.
Lemma steep_one x m : one_airfoil (steep x m) (steep_section m).
Proof. exists "blade", (MkAirfoil "NACA0012" (VStr "root") 0 2 m 0 0 (1 / 50) 0 0). split; reflexivity. Qed.
(** chord over radius 0.1517 makes the delay 157/1360 of the stall angle *)
Lemma steep_delay m : stall_delay (steep_section m) (1517 / 100000 / (1 / 10)) = m / 2 * (157 / 1360).
Proof.
  unfold stall_delay, stall_up. cbn [steep_section s_max s_slope].
  replace (1517 / 100000 / (1 / 10)) with (1517 / 10000) by field.
  replace (1517 / 10000 / (1517 / 10000)) with 1 by field.
  unfold Rpower. rewrite ln_1, Rmult_0_r, exp_0. field.
Qed.
Lemma sign_one : sign 1 = 1 /\ sign (-1) = -1.
Proof. unfold sign. repeat destruct (Rlt_dec _ _); lra. Qed.

(** proportional lift: maximum lift coefficient 20 (the delay exceeds 0.7) *)
Example C70_proportional_applies : exists b, blade_result (steep 1 20) b /\ one_airfoil (steep 1 20) (steep_section 20) /\
  0 < pr_diameter (steep 1 20) /\ degrees (b_alpha b) = 7 / 10 /\
  Rabs (degrees (b_alpha b)) - stall_delay (steep_section 20) (b_chord b / b_r b) < degrees 2 /\ b_cl b = 14 / 10.
Proof.
  destruct (steep_result 1 20) as (b & H & H1 & H2 & H3); [rewrite Rabs_R1; lra|]. rewrite (proj1 sign_one) in H3.
  assert (Ha : degrees (b_alpha b) = 7 / 10) by lra.
  assert (Hs : Rabs (degrees (b_alpha b)) - stall_delay (steep_section 20) (b_chord b / b_r b) < degrees 2).
  { rewrite H1, H2, steep_delay, Ha, Rabs_right by lra. unfold degrees. pose proof PI_RGT_0. lra. }
  exists b. split; [exact H|]. split; [apply steep_one|]. split; [cbn; lra|]. split; [exact Ha|]. split; [exact Hs|].
  rewrite (C70_proportional_lift _ _ _ H (steep_one 1 20)); [rewrite Ha; cbn; lra|cbn; lra|rewrite Ha; lra|exact Hs].
Qed.
(** drag of opposite angles: stall at 0.75 (0.66 and 0.84 for drag), angles 0.7 and -0.7 *)
Example C70_symmetric_applies : exists b b' m,
  blade_result (steep 1 m) b /\ one_airfoil (steep 1 m) (steep_section m) /\
  blade_result (steep (-1) m) b' /\ one_airfoil (steep (-1) m) (steep_section m) /\
  b_chord b / b_r b = b_chord b' / b_r b' /\ degrees (b_alpha b) = 7 / 10 /\ degrees (b_alpha b') = - (7 / 10) /\
  s_zero_lift (steep_section m) = 0 /\ 0 < stall_up (steep_section m) < PI / 2 /\
  b_cl b' = - b_cl b /\ b_cd b < b_cd b'.
Proof.
  destruct (steep_result 1 (3 / 2)) as (b & H & H1 & H2 & H3); [rewrite Rabs_R1; lra|]. rewrite (proj1 sign_one) in H3.
  destruct (steep_result (-1) (3 / 2)) as (b' & H' & H1' & H2' & H3'); [rewrite Rabs_left; lra|]. rewrite (proj2 sign_one) in H3'.
  pose proof PI_gt_3 as Hpi.
  assert (Hd : stall_delay (steep_section (3 / 2)) (b_chord b / b_r b) = 3 / 4 * (157 / 1360)).
  { rewrite H1, H2, steep_delay. lra. }
  assert (Hu : stall_up (steep_section (3 / 2)) = 3 / 4) by (unfold stall_up; cbn; lra).
  assert (Ec : b_chord b / b_r b = b_chord b' / b_r b') by congruence.
  exists b, b', (3 / 2). split; [exact H|]. split; [apply steep_one|]. split; [exact H'|]. split; [apply steep_one|].
  split; [exact Ec|]. split; [lra|]. split; [lra|]. split; [reflexivity|]. split; [rewrite Hu; lra|]. split.
  - apply (C70_symmetric_section_lift _ _ _ _ _ H (steep_one 1 (3 / 2)) ltac:(cbn; lra) H' (steep_one (-1) (3 / 2)) ltac:(cbn; lra));
    rewrite ?Hu; cbn [steep_section s_zero_lift s_slope]; lra || exact Ec.
  - apply (C70_symmetric_section_drag_differs _ _ _ _ _ H (steep_one 1 (3 / 2)) ltac:(cbn; lra) H' (steep_one (-1) (3 / 2)) ltac:(cbn; lra));
    rewrite ?Hu, ?Hd; cbn [steep_section s_zero_lift s_cd0 s_cd1 s_cd2]; try lra; try exact Ec.
    assert (1 / 2 <= sin (3 / 4 - 3 / 4 * (157 / 1360))).
    { rewrite <- sin_PI6. apply Rlt_le, sin_increasing_1; pose proof PI_4; try lra. pose proof PI_ineq 3 as [_ Hp]. unfold tg_alt, PI_tg in Hp. simpl in Hp. lra. }
    nra.
Qed.


(** a section broadside to the air *)
Example C70_broadside_applies : exists x b, blade_result (steep x (3 / 2)) b /\ one_airfoil (steep x (3 / 2)) (steep_section (3 / 2)) /\
  Rabs (degrees (b_alpha b)) = PI / 2 /\ stall_up (steep_section (3 / 2)) + Rabs (stall_delay (steep_section (3 / 2)) (b_chord b / b_r b)) < PI / 2 /\
  b_cd b = 129 / 100.
Proof.
  pose proof PI_gt_3 as Hpi. exists (PI / 2 + 3 / 10).
  destruct (steep_result (PI / 2 + 3 / 10) (3 / 2)) as (b & H & H1 & H2 & H3); [rewrite Rabs_right; lra|].
  replace (sign (PI / 2 + 3 / 10)) with 1 in H3 by (unfold sign; repeat destruct (Rlt_dec _ _); lra).
  assert (Ha : Rabs (degrees (b_alpha b)) = PI / 2) by (rewrite H3, Rabs_right; lra).
  assert (Hd : stall_up (steep_section (3 / 2)) + Rabs (stall_delay (steep_section (3 / 2)) (b_chord b / b_r b)) < PI / 2).
  { rewrite H1, H2, steep_delay, Rabs_right by lra. unfold stall_up. cbn. lra. }
  exists b. split; [exact H|]. split; [apply steep_one|]. split; [exact Ha|]. split; [exact Hd|].
  apply (C70_broadside_drag _ _ _ H (steep_one _ (3 / 2)) ltac:(cbn; lra) Ha Hd). unfold stall_up. cbn. lra.
Qed.
(** a section exactly at the delayed stall angle 1517/1360 *)
Example C70_at_stall_applies : exists x b, blade_result (steep x 2) b /\ one_airfoil (steep x 2) (steep_section 2) /\
  degrees (b_alpha b) = stall_up (steep_section 2) + stall_delay (steep_section 2) (b_chord b / b_r b) /\ b_cl b = 1517 / 680.
Proof.
  pose proof PI_gt_3 as Hpi. exists (1517 / 1360 + 3 / 10).
  destruct (steep_result (1517 / 1360 + 3 / 10) 2) as (b & H & H1 & H2 & H3); [rewrite Rabs_right; lra|].
  replace (sign (1517 / 1360 + 3 / 10)) with 1 in H3 by (unfold sign; repeat destruct (Rlt_dec _ _); lra).
  assert (Hu : stall_up (steep_section 2) = 1) by (unfold stall_up; cbn; lra).
  assert (Hd : stall_delay (steep_section 2) (b_chord b / b_r b) = 157 / 1360) by (rewrite H1, H2, steep_delay; lra).
  exists b. split; [exact H|]. split; [apply steep_one|].
  assert (Ha : degrees (b_alpha b) = stall_up (steep_section 2) + stall_delay (steep_section 2) (b_chord b / b_r b)) by (rewrite Hu, Hd, H3; lra).
  split; [exact Ha|].
  rewrite (C70_lift_at_stall _ _ _ H (steep_one _ 2) ltac:(cbn; lra) Ha); rewrite ?Hu, ?Hd; cbn [steep_section s_max s_slope]; try lra.
  unfold degrees. pose proof PI_4. lra.
Qed.
(** rows to which the stopping rule applies *)
Example C53_last_trials_applies : exists E r g s' b0 b1,
  make_pgeom E (Some "English") None (steep 1 2) = Ok g /\ 0 < pr_diameter (steep 1 2) /\
  props_solve E (V3 0 0 0) None (Some slow) (Some [("J", PNum (/ 2))]) [g] (props_after E None [g] []) = (Ok r, [s']) /\
  prop_rows g s' = ([b0] ++ [b1])%list /\ Forall (fun b => b_r b <> 0) (prop_rows g s').
Proof.
  destruct (steep_run 1 2 ltac:(rewrite Rabs_R1; lra)) as (mem & g & q & s' & b0 & b1 & Hg & Hr & Er & _).
  destruct (alone _ _ _ _ _ _ Hr) as (r & Hs).
  exists (with_memory mem blade_env), r, g, s', b0, b1. split; [exact Hg|]. split; [cbn; lra|]. split; [exact Hs|]. split; [exact Er|].
  destruct (steep_stations _ _ _ _ _ _ R1_neq_R0 Hg) as (z0 & z1 & Es & _ & Hz).
  destruct (solved_rows _ _ _ _ _ _ _ _ Hr) as (R1 & _ & _); [unfold sized, init_pstate; cbn [p_ei]; apply repeat_length|].
  rewrite Forall_forall. intros b Hb. apply (in_map (fun b : blade_row (T := R) => b_r b)) in Hb. rewrite R1 in Hb.
  apply in_map_iff in Hb. destruct Hb as (z & <- & Hz0).
  destruct (make_pgeom_stations _ _ _ _ _ Hg) as [Hst _]. rewrite Forall_forall in Hst. rewrite (Hst z Hz0).
  destruct (make_pgeom_data _ _ _ _ _ Hg) as (_ & _ & -> & _). rewrite Es in Hz0. destruct (Hz z Hz0) as (K & _). cbn. nra.
Qed.
