(** Properties C48-C55 and the propeller part of C20.  Vocabulary: Spec_Prop.v,
    Spec_LL.v.  [make_props E pl pts = Ok gs] and [make_pgeom E units pts p = Ok g]:
    the propeller models of an airplane (of a propeller [p]) were built, [pts] being the
    control points of the wings; [props_solve E cg n aero ps gs ss = (Ok r, ss')]: the
    propeller solver returned [r] = (totals, velocities at the wing points) and left the
    propellers in the states [ss']; [props_after E n gs h]: the propellers after any
    history of calls; [run_prop]: the turn of one propeller during a solve.  The
    environment [E] supplies data files, Simpson integration, the content of
    uninitialised memory and a bound on loop iterations; all theorems hold for every
    [E]. *)
From Coq Require Import Reals ZArith String Bool Arith Lia Lra List Sorting.Sorted.
From Verif Require Import Base Num RVec Geometry Grid LLModel PropModel Spec_Grid Spec_LL Spec_Prop
     Prop_state LL_R Prop_thm Prop_thm2 Prop_thm3 Prop_thm4 Prop_thm5 Prop_thm6 Prop_thm7.
Import ListNotations.
Local Open Scope string_scope.
Local Open Scope R_scope.

(** A solve that returns, for use in the examples: the airplane [demo_plane] with one
    two-bladed propeller in cruise. *)
Example demo_solve_returns (pts : option (list (vec3 R))) :
  exists E g r ss',
    make_props E demo_plane pts = Ok [g] /\ make_pgeom E (Some "English") pts demo_prop = Ok g /\
    props_solve E (V3 0 0 0) (option_map (@List.length _) pts) (Some cruise) (Some [("J", PNum (/ 2))])
      [g] (props_after E (option_map (@List.length _) pts) [g] []) = (Ok r, ss') /\
    map (@p_CL R) ss' = [[1 / 2; 1 / 3]] /\ map (@p_n R) ss' = [200].
Proof.
  destruct (demo_returns pts (V3 0 0 0) [1 / 2; 1 / 3] eq_refl) as (m & g & r & ss' & H).
  exists (with_memory m demo_env), g, r, ss'. exact H.
Qed.
Example cruise_ok : dget (an cruise) "V_mag" = Some 100 /\ dget (an cruise) "rho" = Some (1 / 400) /\
  cos (degrees (entry (an cruise) "beta")) <> 0.
Proof.
  split; [reflexivity|]. split; [reflexivity|]. cbn. unfold degrees. replace (0 * PI / 180) with 0 by field.
  rewrite cos_0. lra.
Qed.

(** *** C48 *)
Theorem C48_propeller_totals :
  forall E cg n aero ps (gs : list (pgeom R)) h r ss',
    props_solve E cg n aero ps gs (props_after E n gs h) = (Ok r, ss') ->
    List.length ss' = List.length gs /\
    force_of (pt_fm (fst r)) = vsum (map (@p_F R) ss') /\
    moment_of (pt_fm (fst r)) = vsum (map (@p_M R) ss') /\
    (* thrust and torque are those of the last propeller only *)
    Some (pt_thrust (fst r)) = option_map (@p_T R) (last_of ss') /\
    Some (pt_torque (fst r)) = option_map (@p_l R) (last_of ss').
Proof.
  intros E cg n aero ps gs h r ss' H.
  destruct (C48_lemma _ _ _ _ _ _ _ _ _ H (props_after_length E n gs h)) as (A & B & C & D & F & _). auto.
Qed.
Print Assumptions C48_propeller_totals.

(** Every propeller had its turn, and its results are in its final state. *)
Theorem C48_every_propeller_solved :
  forall (T : Type) (N : num_ops T) E cg n aero ps (gs : list (pgeom T)) h r ss' g s',
    props_solve E cg n aero ps gs (props_after E n gs h) = (Ok r, ss') ->
    In (g, s') (combine gs ss') ->
    exists s, In (g, s) (combine gs (props_after E n gs h)) /\
      run_prop E cg aero ps g s = (Ok (p_F s', p_M s', p_T s', p_l s'), s').
Proof.
  intros T N E cg n aero ps gs h r ss' g s' H. exact (solve_turn _ _ _ _ _ _ _ _ _ H (props_after_length E n gs h) g s').
Qed.
Print Assumptions C48_every_propeller_solved.

(** *** C20, propellers *)
Theorem C20_propeller_wind_axes :
  forall E cg n a ps (gs : list (pgeom R)) h r ss',
    props_solve E cg n (Some a) ps gs (props_after E n gs h) = (Ok r, ss') ->
    cos (degrees (entry (an a) "beta")) <> 0 ->
    exists u l sd, airflow 1 (degrees (entry (an a) "alpha")) (degrees (entry (an a) "beta")) u /\
      wind_frame u l sd /\
      let f := pt_fm (fst r) in
      FL f = vdot (force_of f) l /\ FD f = vdot (force_of f) u /\ FS f = vdot (force_of f) sd /\
      FL f ^ 2 + FD f ^ 2 + FS f ^ 2 = FX f ^ 2 + FY f ^ 2 + FZ f ^ 2 /\
      force_of f = vadd (vadd (vscale (FL f) l) (vscale (FD f) u)) (vscale (FS f) sd).
Proof.
  intros E cg n a ps gs h r ss' H. exact (C20_props_lemma _ _ _ _ _ _ _ _ _ H (props_after_length E n gs h)).
Qed.
Print Assumptions C20_propeller_wind_axes.

(** *** C49 *)
Theorem C49_setting_selection :
  forall (T : Type) (N : num_ops T) E cg n aero ps ps' (gs : list (pgeom T)) ss,
    (forall g, In g gs -> same_setting (setting_of ps (pg_name g)) (setting_of ps' (pg_name g))) ->
    props_solve E cg n aero ps gs ss = props_solve E cg n aero ps' gs ss.
Proof. exact @C49_lemma. Qed.
Print Assumptions C49_setting_selection.

(** Consequence: entries for propellers the airplane does not have change nothing. *)
Theorem C49_foreign_entries :
  forall (T : Type) (N : num_ops T) E cg n aero d name v (gs : list (pgeom T)) ss,
    ~ In name prop_keys -> d <> [] -> dget d name = None -> (forall g, In g gs -> pg_name g <> name) ->
    props_solve E cg n aero (Some (dset d name v)) gs ss = props_solve E cg n aero (Some d) gs ss.
Proof.
  intros T N E cg n aero d name v gs ss Hk Hd Hn Hg. apply C49_lemma. intros g Hin. specialize (Hg g Hin).
  unfold setting_of. rewrite dget_dset_other by congruence.
  destruct (dget d (pg_name g)); [left; reflexivity|]. right. right.
  exists (dset d name v), d. repeat split; auto.
  - intros K. apply (f_equal (fun l => dget l name)) in K. rewrite dget_dset_same in K. discriminate.
  - intros key Hkey. apply dget_dset_other. intros ->. contradiction.
Qed.
Print Assumptions C49_foreign_entries.

Theorem C49_default_setting :
  forall E cg n a (gs : list (pgeom R)) ss V rho,
    dget (an a) "V_mag" = Some V -> dget (an a) "rho" = Some rho -> V <> 0 ->
    (forall g, In g gs -> pg_d g <> 0 /\ pg_name g <> "J") ->
    props_solve E cg n (Some a) None gs ss = props_solve E cg n (Some a) (Some [("J", PNum (/ 2))]) gs ss.
Proof. exact C49_default_lemma. Qed.
Print Assumptions C49_default_setting.
Example C49_applies : forall (g : pgeom R), pg_name g = "left" ->
  same_setting (setting_of (Some [("left", PDict [("J", PNum 1)]); ("J", PNum 2)]) (pg_name g))
               (setting_of (Some [("left", PDict [("brake_power", PNum 7); ("J", PNum 1)])]) (pg_name g)) -> False.
Proof.
  intros g -> [H|[[H _]|(l & l' & H1 & H2 & _ & _ & H3)]]; cbn in *.
  - injection H as H. discriminate H.
  - discriminate.
  - injection H1 as <-. injection H2 as <-. specialize (H3 "brake_power"). cbn in H3. 
    assert (K : None = Some (PNum (7 : R))) by tauto. discriminate.
Qed.
Example C49_applies_selection :
  same_setting (T := R) (setting_of (Some [("left", PDict [("J", PNum 1)]); ("J", PNum 2)]) "left")
               (setting_of (Some [("name", PNum 0); ("J", PNum 1)]) "left").
Proof.
  right. right. exists [("J", PNum 1)], [("name", PNum 0); ("J", PNum 1)]. repeat split; try discriminate.
  intros key [<-|[<-|[<-|[<-|[]]]]]; reflexivity.
Qed.

(** *** C50 *)
Theorem C50_operating_point :
  forall E cg a ps (g : pgeom R) s q s' V,
    run_prop E cg (Some a) ps g s = (Ok q, s') -> dget (an a) "V_mag" = Some V ->
    let set := setting_of ps (pg_name g) in let d := pg_d g in
    p_Vinf s' = V /\
    (empty_setting set -> p_J s' = 1 / 2 /\ p_n s' = V / (d * (1 / 2))) /\
    (forall l j, set = Some (PDict l) -> dget l "J" = Some (PNum j) ->
       p_J s' = j /\ (j <> 0 -> V <> 0 -> p_n s' = V / (d * j))) /\
    (forall l m, set = Some (PDict l) -> dget l "J" = None -> dget l "rot_per_sec" = Some (PNum m) ->
       p_n s' = m /\ m <> 0) /\
    (* also after a search for given power or throttle *)
    ((forall l, set = Some (PDict l) -> dget l "J" <> Some (PNum 0)) -> V <> 0 -> p_n s' <> 0 ->
       p_J s' = V / (p_n s' * d)).
Proof. exact C50_lemma. Qed.
Print Assumptions C50_operating_point.

Theorem C50_refused_settings :
  forall E cg a ps (g : pgeom R) s V rho l e,
    dget (an a) "V_mag" = Some V -> dget (an a) "rho" = Some rho ->
    setting_of ps (pg_name g) = Some (PDict l) -> refused V (pg_motor g <> None) l e ->
    fst (run_prop E cg (Some a) ps g s) = Err e.
Proof. exact C50_refused. Qed.
Print Assumptions C50_refused_settings.

(** The angles at which the blade sections were solved belong to the reported J, or to a
    rotation rate closer than 1e-14 to the reported one (search). *)
Theorem C50_solved_at_reported_rate :
  forall E cg n aero ps (gs : list (pgeom R)) h r ss' g s',
    props_solve E cg n aero ps gs (props_after E n gs h) = (Ok r, ss') ->
    In (g, s') (combine gs ss') ->
    exists m, Rabs (p_n s' - m) < / 10 ^ 14 /\
      (p_einf s' = map (fun z => Ratan2 (p_J s') (PI * z_zeta z)) (pg_stations g) \/
       p_einf s' = map (fun z => Ratan2 (p_Vinf s' / (m * pg_d g)) (PI * z_zeta z)) (pg_stations g)).
Proof.
  intros E cg n aero ps gs h r ss' g s' H Hin.
  destruct (solve_turn _ _ _ _ _ _ _ _ _ H (props_after_length E n gs h) g s' Hin) as (s & Hs & Hr).
  apply (run_prop_search _ _ _ _ _ _ _ _ Hr). exact (Forall2_combine _ _ _ _ _ (props_after_sized E n gs h) Hs).
Qed.
Print Assumptions C50_solved_at_reported_rate.

(** Finding: with J = 0 and a rotation rate at non-zero airspeed the reported J is not
    V/(n d). *)
Theorem C50_zero_J_refuted :
  exists E (g : pgeom R) q s',
    make_pgeom E (Some "English") None demo_prop = Ok g /\
    run_prop E (V3 0 0 0) (Some cruise) (Some [("J", PNum 0); ("rot_per_sec", PNum 50)]) g (init_pstate g)
      = (Ok q, s') /\
    p_n s' = 50 /\ p_J s' <> p_Vinf s' / (p_n s' * pg_d g).
Proof.
  destruct (demo_zero_J) as (m & g & q & s' & H). exists (with_memory m demo_env), g, q, s'. exact H.
Qed.
Print Assumptions C50_zero_J_refuted.
Example C50_applies_refused : refused 0 False [("J", PNum 2)] RuntimeError /\ refused 5 False [("pitch", PNum 2)] RuntimeError.
Proof.
  split.
  - left. repeat split. exists 2. split; [reflexivity|]. now right.
  - right. left. repeat split; [discriminate|]. intros key [<-|[<-|[<-|[<-|[]]]]]; reflexivity.
Qed.

(** *** C51 *)
Theorem C51_force_and_moment :
  forall E u wp (p : prop R) g cg a ps s s' V F M Th l,
    make_pgeom E u wp p = Ok g ->
    run_prop E cg (Some a) ps g s = (Ok (F, M, Th, l), s') ->
    dget (an a) "V_mag" = Some V ->
    cos (degrees (entry (an a) "alpha")) <> 0 \/ cos (degrees (entry (an a) "beta")) <> 0 ->
    let f := propeller_axis (pr_elevation p) (pr_heading p) in
    let d := pr_diameter p in let rot := rot_dir (pr_rot_dir p) in
    let r := vsub (pr_position p) cg in
    let v := p_v s' in
    let k4 := p_rho s' * p_n s' ^ 2 * d ^ 4 in let k5 := p_rho s' * p_n s' ^ 2 * d ^ 5 in
    airflow 1 (degrees (entry (an a) "alpha")) (degrees (entry (an a) "beta")) v /\
    dget (an a) "rho" = Some (p_rho s') /\ p_Vinf s' = V /\
    vdot f f = 1 /\
    Th = k4 * p_CT s' /\ l = - rot * (k5 * p_Cl s') /\
    exists x, angle_between f (vopp v) x /\
      (x = 0 -> F = vscale Th f /\ M = vadd (vcross r F) (vscale l f)) /\
      (0 < x < PI -> exists e, along_disk v f e /\
         F = vadd (vscale Th f) (vscale (k4 * p_CNa s' * x) e) /\
         M = vadd (vadd (vcross r F) (vscale (rot * (k5 * p_Cna s' * x)) e)) (vscale l f)).
Proof. exact C51_lemma. Qed.
Print Assumptions C51_force_and_moment.

(** Opposite rotation: same force and thrust, opposite torque and yawing moment. *)
Theorem C51_opposite_rotation :
  forall E u wp (p : prop R) g g' v w cg aero ps s F M Th l s',
    make_pgeom E u wp (with_rotation v p) = Ok g -> make_pgeom E u wp (with_rotation w p) = Ok g' ->
    rot_dir (T := R) w = - rot_dir v ->
    run_prop E cg aero ps g s = (Ok (F, M, Th, l), s') ->
    exists M' s'', run_prop E cg aero ps g' s = (Ok (F, M', Th, - l), s'') /\
      vadd M M' = vscale 2 (vcross (vsub (pr_position p) cg) F).
Proof. exact C51_reversed. Qed.
Print Assumptions C51_opposite_rotation.
Theorem C51_rotation_values :
  rot_dir (T := R) (VStr "CCW") = 1 /\ rot_dir (T := R) (VStr "ccw") = 1 /\
  rot_dir (T := R) (VStr "CW") = - 1 /\ rot_dir (T := R) (VStr "cw") = - 1 /\
  rot_dir (T := R) (VInt 1) = 1 /\ rot_dir (T := R) (VInt (-1)) = - 1.
Proof. repeat split; unfold rot_dir; cbn [peq_str peq_int String.eqb Ascii.eqb Bool.eqb orb Z.eqb]; rnum; reflexivity || lra. Qed.
Print Assumptions C51_rotation_values.

(** *** C52 *)

(** On the first use of a propeller, whatever its geometry and operating point, the
    section lift coefficients that come out are whatever the allocator returned: for every
    list [c] there is a memory content for which the solve returns with exactly [c]. *)
Theorem C52_first_use_reads_uninitialised :
  forall E u wp (p : prop R) g cg a V rho j c,
    make_pgeom E u wp p = Ok g ->
    dget (an a) "V_mag" = Some V -> dget (an a) "rho" = Some rho ->
    cos (degrees (entry (an a) "alpha")) <> 0 \/ cos (degrees (entry (an a) "beta")) <> 0 ->
    V <> 0 -> j <> 0 -> pr_diameter p <> 0 -> (0 < pe_fuel E)%nat -> pr_blades p <> 0%nat ->
    pg_stations g <> [] -> pr_name p <> "J" ->
    (forall z, In z (pg_stations g) -> z_zeta z <> 0 /\ z_cb z <> 0 /\
       Rabs (z_beta z - Ratan2 j (PI * z_zeta z)) < 1) ->
    List.length c = List.length (pg_stations g) ->
    exists m q s', run_prop (with_memory m E) cg (Some a) (Some [("J", PNum j)]) g (init_pstate g) = (Ok q, s') /\
      p_CL s' = c /\ p_n s' = V / (pr_diameter p * j) /\ p_J s' = j.
Proof. exact C52_lemma. Qed.
Print Assumptions C52_first_use_reads_uninitialised.

(** At angles of attack other than zero every lift coefficient is assigned. *)
Theorem C52_nonzero_angles_assigned :
  forall (ss : list (station R)) alphas mem mem', Forall (fun a => a <> 0) alphas ->
    get_CL mem ss alphas = get_CL mem' ss alphas.
Proof. exact get_CL_mem. Qed.
Print Assumptions C52_nonzero_angles_assigned.

(** *** C53 *)
Theorem C53_induced_angles :
  forall E cg n aero ps (gs : list (pgeom R)) h r ss' g s',
    props_solve E cg n aero ps gs (props_after E n gs h) = (Ok r, ss') ->
    In (g, s') (combine gs ss') ->
    Forall2 (fun b x => Rabs x < 1 /\
               (z_beta (fst b) <> snd b -> x = 0 \/ sign x = sign (z_beta (fst b) - snd b)))
            (combine (pg_stations g) (p_einf s')) (p_ei s').
Proof.
  intros E cg n aero ps gs h r ss' g s' H Hin.
  destruct (solve_turn _ _ _ _ _ _ _ _ _ H (props_after_length E n gs h) g s' Hin) as (s & Hs & Hr).
  apply (induced_correct _ _ _ _ _ _ _ _ Hr). exact (Forall2_combine _ _ _ _ _ (props_after_sized E n gs h) Hs).
Qed.
Print Assumptions C53_induced_angles.

(** *** C54 *)
Theorem C54_aerodynamic_pitch :
  forall E u wp (p : prop R) g z x i,
    make_pgeom E u wp p = Ok g -> 0 < pr_diameter p -> In z (pg_stations g) ->
    chord_angle (pe_table E) p (z_zeta z) x -> increment p i ->
    0 < z_zeta z -> - (PI / 2) < z_al0 z < PI / 2 -> - (PI / 2) < x - z_al0 z < PI / 2 ->
    z_beta z = x - z_al0 z + i.
Proof. exact C54_lemma. Qed.
Print Assumptions C54_aerodynamic_pitch.
Example C54_applies E u wp g : make_pgeom E u wp demo_prop = Ok g ->
  forall z, In z (pg_stations g) -> 0 < z_zeta z /\ z_cb z <> 0 /\
    z_beta z = atan ((1 / 2) / (PI * z_zeta z)) + 369 / 10000.
Proof. exact (demo_stations E u wp g). Qed.

(** *** C55 *)

(** A wing point outside all stream tubes sees exactly the freestream. *)
Theorem C55_outside_is_freestream :
  forall E (pl : airplane R) pts gs cg a ps ss r rows ss' i pt V,
    make_props E pl (Some pts) = Ok gs ->
    props_solve E cg (Some (List.length pts)) (Some a) ps gs ss = (Ok (r, Some rows), ss') ->
    dget (an a) "V_mag" = Some V -> 0 < V ->
    cos (degrees (entry (an a) "alpha")) <> 0 \/ cos (degrees (entry (an a) "beta")) <> 0 ->
    nth_error pts i = Some pt ->
    (forall p, In p (map snd (a_props pl)) ->
       ~ in_streamtube (pr_position p) (propeller_axis (pr_elevation p) (pr_heading p)) (pr_diameter p) pt) ->
    exists rho v, nth_error rows i = Some (rho, v) /\ dget (an a) "rho" = Some rho /\
      airflow V (degrees (entry (an a) "alpha")) (degrees (entry (an a) "beta")) v.
Proof. exact C55_lemma. Qed.
Print Assumptions C55_outside_is_freestream.

(** Otherwise the velocity is the freestream plus one contribution per propeller. *)
Theorem C55_contributions_add :
  forall E (pl : airplane R) pts gs cg a ps ss r rows ss' i pt V,
    make_props E pl (Some pts) = Ok gs ->
    props_solve E cg (Some (List.length pts)) (Some a) ps gs ss = (Ok (r, Some rows), ss') ->
    dget (an a) "V_mag" = Some V -> 0 < V ->
    cos (degrees (entry (an a) "alpha")) <> 0 \/ cos (degrees (entry (an a) "beta")) <> 0 ->
    nth_error pts i = Some pt ->
    exists rho v, dget (an a) "rho" = Some rho /\
      airflow V (degrees (entry (an a) "alpha")) (degrees (entry (an a) "beta")) v /\
      nth_error rows i =
        Some (rho, vadd v (vsum (map2 (fun g s =>
                point_velocity g s (wing_point (pg_pos g) (pg_forward g) (pg_d g) pt)) gs ss'))).
Proof.
  intros E pl pts gs cg a ps ss r rows ss' i pt V H1 H2 H3 H4 H5 H6.
  destruct (C55_rows_lemma _ _ _ _ _ _ _ _ _ _ _ _ _ _ H1 H2 H3 H4 H5 H6) as (rho & v & A & B & C).
  exists rho, v. auto.
Qed.
Print Assumptions C55_contributions_add.

(** Contributions against the flight direction: between nothing and twice the induced
    velocity in the disk. *)
Theorem C55_axial_velocity_bounds :
  forall E u wp (p : prop R) g s pt m,
    make_pgeom E u wp p = Ok g -> 0 < pr_diameter p -> 0 <= m ->
    Forall (fun v => 0 <= v <= m) (p_Vxi s) ->
    let f := propeller_axis (pr_elevation p) (pr_heading p) in
    let v := point_velocity g s (wing_point (pr_position p) f (pr_diameter p) pt) in
    0 <= vdot v (vopp f) <= 2 * m.
Proof.
  intros E u wp p g s pt m Hg Hd Hm Hv. cbv zeta.
  destruct (make_pgeom_data _ _ _ _ _ Hg) as (E1 & E2 & E3 & _). rewrite <- E1.
  apply axial_bounds; auto; [rewrite E1; apply propeller_axis_unit|now rewrite E3].
Qed.
Print Assumptions C55_axial_velocity_bounds.

(** Development of the induced velocity behind the disk. *)
Theorem C55_development :
  forall s radius, 0 < s -> 0 < radius -> 1 < development (T := R) s radius < 2.
Proof. exact development_bounds. Qed.
Print Assumptions C55_development.

(** Contraction: the radii behind the disk keep their order, never exceed the radii in
    the disk and conserve the flow between stations. *)
Theorem C55_contraction :
  forall Vinf kd r v l, 0 < Vinf -> 1 <= kd -> 0 <= r -> 0 <= v ->
    StronglySorted Rlt (r :: map fst l) -> Forall (fun q => 0 <= snd q) l ->
    exists rps, contracted (T := R) Vinf kd ((r, v) :: l) = r :: rps /\ tube Vinf kd r r v l rps.
Proof. exact contracted_tube. Qed.
Print Assumptions C55_contraction.
Example C55_applies_outside :
  ~ in_streamtube (pr_position demo_prop) (propeller_axis 0 0) (pr_diameter demo_prop) (V3 (- 1) 2 0) /\
  in_streamtube (pr_position demo_prop) (propeller_axis 0 0) (pr_diameter demo_prop) (V3 (- 1) (1 / 4) 0).
Proof.
  assert (Ha : propeller_axis 0 0 = V3 1 0 0).
  { unfold propeller_axis, degrees. replace (0 * PI / 180) with 0 by field. rewrite cos_0, sin_0.
    apply vec_eq; cbn [vx vy vz]; ring. }
  rewrite Ha. unfold in_streamtube. cbn [pr_position pr_diameter demo_prop].
  assert (N : forall x y, 0 <= y -> vnorm (vcross (vsub (V3 x y 0) (V3 1 0 0)) (V3 1 0 0)) = y).
  { intros x y Hy. apply vnorm_eq; [exact Hy|]. unfold vcross, vsub, vdot. cbn [vx vy vz]. rnum. ring. }
  rewrite !N by lra. unfold vsub, vdot. cbn [vx vy vz]. rnum. split; [intros [_ K]; lra|lra].
Qed.
Example C55_applies_contraction :
  StronglySorted Rlt (1 / 10 :: map fst [(1 / 4, 3); (1 / 2, 2)]) /\ Forall (fun q : R * R => 0 <= snd q) [(1 / 4, 3); (1 / 2, 2)].
Proof. split; repeat constructor; cbn; lra. Qed.
