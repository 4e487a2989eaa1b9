(** Blade-element properties of the propellers (C66-C69): thrust and torque from the
    rows of the distributions, velocities at the blade sections, rotation rate from power
    or throttle, velocity profile of the slipstream. *)
From Coq Require Import Reals ZArith String Bool Arith Lia Lra List.
From Verif Require Import Base Num RVec Geometry Grid LLModel PropModel Spec_Grid Spec_LL Spec_Prop
     Spec_Blade Spec_Slip Prop_state LL_R LL_thm2 Prop_thm Prop_thm2 Prop_thm3 Prop_thm4 Prop_thm5 Prop_thm6 Prop_thm7 Prop_thm8
     Prop_thm9 Prop_thm10 Demo_Blade.
Import ListNotations.
Local Open Scope string_scope.
Local Open Scope R_scope.

(** Whatever calls [h] went before, after a successful call of the propeller solver the
    thrust and the torque of every propeller are the integrals over the radius of the
    loads on the rows its distributions list, one row per blade node. *)
Theorem C66_thrust_and_torque :
  forall E cg n aero ps (gs : list (pgeom R)) h r ss' u wp p g s',
    props_solve E cg n aero ps gs (props_after E n gs h) = (Ok r, ss') ->
    In (g, s') (combine gs ss') ->
    make_pgeom E u wp p = Ok g -> 0 < pr_diameter p -> quadrature (pe_simps E) ->
    let rows := prop_rows g s' in let rho := p_rho s' in let n := p_n s' in let k := pr_blades p in
    let integral f := pe_simps E (map f rows) (map (fun b => b_r b) rows) in
    p_T s' = integral (thrust_of rho n k) /\
    p_l s' = - rot_dir (pr_rot_dir p) * integral (torque_of rho n k) /\
    List.length rows = pr_nodes p.
Proof.
  intros E cg n aero ps gs h r ss' u wp p g s' H Hin Hg Hd Hq.
  destruct (solve_turn _ _ _ _ _ _ _ _ _ H (props_after_length E n gs h) g s' Hin) as (s & Hs & Hr).
  exact (C66_lemma _ _ _ _ _ _ _ _ _ _ _ _ _ _ Hg Hd Hq Hr (Forall2_combine _ _ _ _ _ (props_after_sized E n gs h) Hs)).
Qed.
Print Assumptions C66_thrust_and_torque.

(** The power coefficient is that of the power the blades absorb, and the efficiency is
    thrust times airspeed over that power, 0 without thrust. *)
Theorem C66_power_and_efficiency :
  forall E cg n a ps (gs : list (pgeom R)) h r ss' u wp p g s' V,
    props_solve E cg n (Some a) ps gs (props_after E n gs h) = (Ok r, ss') ->
    In (g, s') (combine gs ss') ->
    make_pgeom E u wp p = Ok g -> 0 < pr_diameter p -> quadrature (pe_simps E) ->
    dget (an a) "V_mag" = Some V -> V <> 0 -> 0 < p_rho s' -> 0 < p_n s' ->
    rate_given (setting_of ps (pg_name g)) ->
    (forall d, setting_of ps (pg_name g) = Some (PDict d) -> dget d "J" <> Some (PNum 0)) ->
    let P := shaft_power E g (p_rho s') (p_n s') s' in
    p_rho s' * p_n s' ^ 3 * pr_diameter p ^ 5 * p_CP s' = P /\
    (p_T s' <= 0 -> p_eff s' = 0) /\ (0 < p_T s' -> P <> 0 -> p_eff s' = p_T s' * V / P).
Proof.
  intros E cg n a ps gs h r ss' u wp p g s' V H Hin Hg Hd Hq.
  destruct (solve_turn _ _ _ _ _ _ _ _ _ H (props_after_length E n gs h) g s' Hin) as (s & Hs & Hr).
  exact (C66_power_lemma _ _ _ _ _ _ _ _ _ _ _ _ _ _ _ Hg Hd Hq Hr (Forall2_combine _ _ _ _ _ (props_after_sized E n gs h) Hs)).
Qed.
Print Assumptions C66_power_and_efficiency.

(** The angle of attack of every row is what advance and induced angle leave of the pitch. *)
Theorem C67_angles :
  forall E cg n aero ps (gs : list (pgeom R)) h r ss' g s',
    props_solve E cg n aero ps gs (props_after E n gs h) = (Ok r, ss') ->
    In (g, s') (combine gs ss') ->
    Forall (fun b => b_alpha b = b_pitch b - b_advance b - b_induced b) (prop_rows g s').
Proof.
  intros E cg n aero ps gs h r ss' g s' H Hin.
  destruct (solve_turn _ _ _ _ _ _ _ _ _ H (props_after_length E n gs h) g s' Hin) as (s & Hs & Hr).
  exact (C67_alpha _ _ _ _ _ _ _ _ Hr (Forall2_combine _ _ _ _ _ (props_after_sized E n gs h) Hs)).
Qed.
Print Assumptions C67_angles.

(** Velocities and angles of every row fit together. *)
Theorem C67_velocity_triangles :
  forall E cg n a ps (gs : list (pgeom R)) h r ss' u wp p g s' V,
    props_solve E cg n (Some a) ps gs (props_after E n gs h) = (Ok r, ss') ->
    In (g, s') (combine gs ss') ->
    make_pgeom E u wp p = Ok g -> 0 < pr_diameter p -> 0 < pr_hub p ->
    dget (an a) "V_mag" = Some V -> V <> 0 -> p_n s' <> 0 ->
    rate_given (setting_of ps (pg_name g)) ->
    (forall l, setting_of ps (pg_name g) = Some (PDict l) -> dget l "J" <> Some (PNum 0)) ->
    Forall (velocity_triangle (p_n s') V) (prop_rows g s').
Proof.
  intros E cg n a ps gs h r ss' u wp p g s' V H Hin Hg Hd Hh.
  destruct (solve_turn _ _ _ _ _ _ _ _ _ H (props_after_length E n gs h) g s' Hin) as (s & Hs & Hr).
  exact (C67_lemma _ _ _ _ _ _ _ _ _ _ _ _ Hg Hd Hh Hr (Forall2_combine _ _ _ _ _ (props_after_sized E n gs h) Hs)).
Qed.
Print Assumptions C67_velocity_triangles.

(** A propeller given its power: the reported rate is within 1e-14 of a rate at which the
    blades were solved, and either the power absorbed there is the given one to 1e-14, or
    the reported rate is where the line through the powers at the last two rates tried
    meets the given one. *)
Theorem C68_rate_from_power :
  forall E cg n a ps (gs : list (pgeom R)) h r ss' u wp p g s' V l P,
    props_solve E cg n (Some a) ps gs (props_after E n gs h) = (Ok r, ss') ->
    In (g, s') (combine gs ss') ->
    make_pgeom E u wp p = Ok g -> 0 < pr_diameter p -> quadrature (pe_simps E) ->
    dget (an a) "V_mag" = Some V ->
    setting_of ps (pg_name g) = Some (PDict l) ->
    dget l "J" = None -> dget l "rot_per_sec" = None -> dget l "brake_power" = Some (PNum P) ->
    let n := p_n s' in let rho := p_rho s' in
    exists m, Rabs (n - m) < / 10 ^ 14 /\ trial E g V m s' /\
      let Pm := shaft_power E g rho m s' in
      ((n = m /\ Rabs (Pm - P) < / 10 ^ 14) \/
       exists m0 s0, trial E g V m0 s0 /\
         let P0 := shaft_power E g rho m0 s0 in
         P0 <> Pm -> line_root m0 (P0 - P) m (Pm - P) n).
Proof.
  intros E cg n a ps gs h r ss' u wp p g s' V l P H Hin Hg Hd Hq.
  destruct (solve_turn _ _ _ _ _ _ _ _ _ H (props_after_length E n gs h) g s' Hin) as (s & Hs & Hr).
  exact (C68_power_lemma _ _ _ _ _ _ _ _ _ _ _ _ _ _ Hg Hd Hq Hr (Forall2_combine _ _ _ _ _ (props_after_sized E n gs h) Hs)).
Qed.
Print Assumptions C68_rate_from_power.

(** The same for a propeller given the throttle of its electric motor: the torques of
    blades and motor are balanced. *)
Theorem C68_rate_from_throttle :
  forall E cg n a ps (gs : list (pgeom R)) h r ss' u wp p g s' V l t mo,
    props_solve E cg n (Some a) ps gs (props_after E n gs h) = (Ok r, ss') ->
    In (g, s') (combine gs ss') ->
    make_pgeom E u wp p = Ok g -> 0 < pr_diameter p -> quadrature (pe_simps E) ->
    dget (an a) "V_mag" = Some V ->
    setting_of ps (pg_name g) = Some (PDict l) ->
    dget l "J" = None -> dget l "rot_per_sec" = None -> dget l "brake_power" = None ->
    dget l "electric_throttle" = Some (PNum t) ->
    motor_data p mo -> mo_kv mo <> 0 -> control t * mo_rb mo + mo_rc mo + mo_rm mo <> 0 ->
    let n := p_n s' in let rho := p_rho s' in
    exists m tq, Rabs (n - m) < / 10 ^ 14 /\ trial E g V m s' /\ motor_torque_spec u mo t m tq /\
      let Qm := shaft_torque E g rho m s' in
      ((n = m /\ Rabs (Qm - tq) < / 10 ^ 14) \/
       exists m0 s0 tq0, trial E g V m0 s0 /\ motor_torque_spec u mo t m0 tq0 /\
         let Q0 := shaft_torque E g rho m0 s0 in
         Q0 - tq0 <> Qm - tq -> line_root m0 (Q0 - tq0) m (Qm - tq) n).
Proof.
  intros E cg n a ps gs h r ss' u wp p g s' V l t mo H Hin Hg Hd Hq HV Hset H1 H2 H3 H4 Hm.
  destruct (solve_turn _ _ _ _ _ _ _ _ _ H (props_after_length E n gs h) g s' Hin) as (s & Hs & Hr).
  exact (C68_throttle_lemma _ _ _ _ _ _ _ _ _ _ _ _ _ _ _ Hg Hd Hq Hr
    (Forall2_combine _ _ _ _ _ (props_after_sized E n gs h) Hs) HV Hset H1 H2 H3 H4 (motor_data_of _ _ _ _ _ _ Hg Hm)).
Qed.
Print Assumptions C68_rate_from_throttle.

(** *** Slipstream *)
(** Whatever calls [h] went before, when the solver succeeds the air velocity it reports at a
    wing point is the airflow plus one contribution per propeller, each given by the rows of
    that propeller's distributions. *)
Theorem C69_slipstream_profile :
  forall E (pl : airplane R) pts gs cg a ps h r out ss' i pt V,
    make_props E pl (Some pts) = Ok gs ->
    let n := Some (List.length pts) in let props := map snd (a_props pl) in
    props_solve E cg n (Some a) ps gs (props_after E n gs h) = (Ok (r, Some out), ss') ->
    dget (an a) "V_mag" = Some V -> 0 < V ->
    cos (degrees (entry (an a) "alpha")) <> 0 \/ cos (degrees (entry (an a) "beta")) <> 0 ->
    nth_error pts i = Some pt ->
    (forall p g s, In (p, (g, s)) (combine props (combine gs ss')) ->
       has_disk p /\ Forall (fun b => 0 <= b_Vx b) (prop_rows g s)) ->
    exists rho v added, dget (an a) "rho" = Some rho /\
      airflow V (degrees (entry (an a) "alpha")) (degrees (entry (an a) "beta")) v /\
      nth_error out i = Some (rho, vadd v (vsum added)) /\
      List.length added = List.length props /\
      Forall2 (fun q w => slipstream_velocity (fst q) V (prop_rows (fst (snd q)) (snd (snd q))) pt w)
              (combine props (combine gs ss')) added.
Proof. exact C69_lemma. Qed.
Print Assumptions C69_slipstream_profile.

(** *** The hypotheses can be met *)
(** a wing point one diameter behind the propeller and a quarter diameter off its axis *)
Example C69_applies : exists E pt g r out s',
  make_props E demo_plane (Some [pt]) = Ok [g] /\
  props_solve E (V3 0 0 0) (Some 1%nat) (Some slow) (Some [("J", PNum (/ 2))]) [g] (props_after E (Some 1%nat) [g] []) =
    (Ok (r, Some out), [s']) /\
  dget (an slow) "V_mag" = Some (15 / 2) /\ map snd (a_props demo_plane) = [demo_prop] /\
  has_disk demo_prop /\ Forall (fun b => 0 <= b_Vx b) (prop_rows g s') /\
  in_streamtube (pr_position demo_prop) (propeller_axis (pr_elevation demo_prop) (pr_heading demo_prop)) (pr_diameter demo_prop) pt /\
  0 < vnorm (off_axis (pr_position demo_prop) (propeller_axis (pr_elevation demo_prop) (pr_heading demo_prop)) pt) /\
  p_CL s' = [1 / 2; 1 / 3].
Proof.
  destruct (slip_run [1 / 2; 1 / 3] eq_refl) as (m & g & r & out & s' & H1 & _ & H2 & H3 & H4 & _). cbv zeta in *.
  exists (with_memory m blade_env), (V3 (- 1) (1 / 4) 0), g, r, out, s'.
  split; [exact H1|]. split; [exact H2|]. split; [reflexivity|]. split; [reflexivity|].
  split; [unfold has_disk; cbn; split; [lia|lra]|]. split; [exact H3|].
  assert (Ef : propeller_axis (pr_elevation demo_prop) (pr_heading demo_prop) = V3 1 0 0).
  { unfold propeller_axis. cbn. unfold degrees. replace (0 * PI / 180) with 0 by field.
    rewrite ?cos_0, ?sin_0. f_equal; ring. }
  rewrite Ef. split; [|split; [|exact H4]].
  - unfold in_streamtube. cbn. split; [rnum; lra|].
    replace (_ + _ + _) with ((1 / 4) * (1 / 4)) by (rnum; lra). rewrite sqrt_square; rnum; lra.
  - unfold off_axis. cbn. apply sqrt_lt_R0. rnum. lra.
Qed.

Lemma alone E cg ps (g : pgeom R) q s' : run_prop E cg (Some slow) ps g (init_pstate g) = (Ok q, s') ->
  exists r, props_solve E cg None (Some slow) ps [g] (props_after E None [g] []) = (Ok r, [s']).
Proof.
  intros H. unfold props_after. cbn [fold_left map]. unfold props_solve, sbind, calc_forces. cbn [run_props].
  rewrite H. destruct q as [[[F M] Th] l]. cbn [last_of]. eexists. reflexivity.
Qed.
(** a two-bladed propeller of diameter 1, two nodes, at J = 1/2 *)
Example C66_C67_applies : exists E r g s',
  make_pgeom E (Some "English") None demo_prop = Ok g /\ quadrature (pe_simps E) /\
  props_solve E (V3 0 0 0) None (Some slow) (Some [("J", PNum (/ 2))]) [g] (props_after E None [g] []) = (Ok r, [s']) /\
  p_n s' = 15 /\ p_rho s' = 1 / 400 /\ rate_given (setting_of (Some [("J", PNum (/ 2))]) (pg_name g)) /\
  p_CL s' = [1 / 2; 1 / 3].
Proof.
  destruct (blade_run (V3 0 0 0) [1 / 2; 1 / 3] eq_refl) as (m & g & q & s' & Hg & Hr & H1 & H2).
  destruct (alone _ _ _ _ _ _ Hr) as (r & Hs).
  exists (with_memory m blade_env), r, g, s'. split; [exact Hg|]. split; [exact trapezoid_quadrature|].
  split; [exact Hs|]. split; [exact H2|]. split.
  - destruct (run_prop_flow _ _ _ _ _ _ _ _ (15 / 2) Hr eq_refl) as (rho & D & F).
    unfold flow_of in F. cbn in D. injection D as <-. congruence.
  - split; [|exact H1]. destruct (make_pgeom_data _ _ _ _ _ Hg) as (_ & _ & _ & _ & En & _). rewrite En.
    cbn [setting_of demo_prop pr_name dget String.eqb Ascii.eqb Bool.eqb rate_given]. left. discriminate.
Qed.
Example C68_power_applies : exists E P r g s',
  make_pgeom E (Some "English") None demo_prop = Ok g /\ quadrature (pe_simps E) /\
  props_solve E (V3 0 0 0) None (Some slow) (Some [("brake_power", PNum P)]) [g] (props_after E None [g] []) = (Ok r, [s']) /\
  setting_of (Some [("brake_power", PNum P)]) (pg_name g) = Some (PDict [("brake_power", PNum P)]) /\
  p_n s' = 15 /\ p_CL s' = [1 / 2; 1 / 3].
Proof.
  destruct power_run as (m & g & P & q & s' & Hg & Hr & H1 & H2).
  destruct (alone _ _ _ _ _ _ Hr) as (r & Hs).
  exists (with_memory m blade_env), P, r, g, s'. split; [exact Hg|]. split; [exact trapezoid_quadrature|].
  split; [exact Hs|]. split; [|split; assumption].
  destruct (make_pgeom_data _ _ _ _ _ Hg) as (_ & _ & _ & _ & En & _). rewrite En. reflexivity.
Qed.
Example C68_throttle_applies : exists E io r g s',
  make_pgeom E (Some "English") None (motor_prop io) = Ok g /\ quadrature (pe_simps E) /\
  props_solve E (V3 0 0 0) None (Some slow) (Some [("electric_throttle", PNum 1)]) [g] (props_after E None [g] []) = (Ok r, [s']) /\
  setting_of (Some [("electric_throttle", PNum 1)]) (pg_name g) = Some (PDict [("electric_throttle", PNum 1)]) /\
  motor_data (motor_prop io) (demo_motor io) /\ p_n s' = 15 /\ p_CL s' = [1 / 2; 1 / 3].
Proof.
  destruct throttle_run as (m & io & g & q & s' & Hg & Hr & H1 & H2).
  destruct (alone _ _ _ _ _ _ Hr) as (r & Hs).
  exists (with_memory m blade_env), io, r, g, s'. split; [exact Hg|]. split; [exact trapezoid_quadrature|].
  split; [exact Hs|]. split; [|split; [|split; assumption]].
  - destruct (make_pgeom_data _ _ _ _ _ Hg) as (_ & _ & _ & _ & En & _). rewrite En. reflexivity.
  - unfold motor_data. cbv zeta. split; [left; reflexivity|].
    repeat split; eexists; (split; [reflexivity|left; reflexivity]).
Qed.
