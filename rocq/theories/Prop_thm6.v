(** Propeller theorems over the real numbers, part 6: velocities in the slipstream, and
    a concrete propeller. *)
From Coq Require Import Reals ZArith String Bool Arith Lia Lra List Sorting.Sorted.
From Verif Require Import Base Num RVec Geometry Grid LLModel PropModel Spec_Grid Spec_LL Spec_Prop
     Prop_state LL_R LL_thm2 Prop_thm Prop_thm2 Prop_thm3 Prop_thm4 Prop_thm5.
Import ListNotations.
Local Open Scope string_scope.
Local Open Scope R_scope.

Lemma interp_from_bounds lo up pts : forall x0 y0 hi x, Forall (fun p => lo <= snd p <= up) pts ->
  lo <= y0 <= up -> lo <= hi <= up -> x0 <= x -> lo <= interp_from (T := R) x0 y0 pts hi x <= up.
Proof.
  induction pts as [|[x1 y1] pts IH]; intros x0 y0 hi x Hp Hy Hh Hx; cbn [interp_from]; rnum.
  - destruct (Rltb x0 x); lra.
  - inversion Hp as [|q l Hq Hl]; subst. cbn [snd] in Hq.
    destruct (Rleb x x1) eqn:K.
    + apply Rleb_true in K. destruct (Req_dec x1 x0) as [E|E].
      * assert (x - x0 = 0) by lra. rewrite H. lra.
      * set (t := (x - x0) / (x1 - x0)).
        assert (Ht : 0 <= t <= 1).
        { unfold t. split; [apply Rmult_le_pos; [lra|]; apply Rlt_le, Rinv_0_lt_compat; lra|].
          apply (Rmult_le_reg_r (x1 - x0)); [lra|]. unfold Rdiv. rewrite Rmult_assoc, Rinv_l by lra. lra. }
        replace ((y1 - y0) / (x1 - x0) * (x - x0) + y0) with (t * y1 + (1 - t) * y0) by (unfold t; field; lra).
        split; nra.
    + apply Rleb_false in K. apply IH; auto. lra.
Qed.
Lemma interpolate_bounds lo up l h pts x : Forall (fun p => lo <= snd p <= up) pts ->
  lo <= l <= up -> lo <= h <= up -> lo <= interpolate (T := R) l h pts x <= up.
Proof.
  intros Hp Hl Hh. unfold interpolate. destruct pts as [|[x0 y0] pts]; [exact Hl|].
  inversion Hp as [|q r Hq Hr]; subst. rnum. destruct (Rltb x x0) eqn:K; [exact Hl|].
  apply Rltb_false in K. apply interp_from_bounds; auto.
Qed.
Lemma combine_snd_forall {A B} (P : B -> Prop) (l : list A) : forall l', Forall P l' -> Forall (fun q => P (snd q)) (combine l l').
Proof.
  induction l as [|a l IH]; intros [|b l'] H; cbn; constructor; inversion H; subst; auto.
Qed.

(** velocity along the slipstream axis *)
Lemma axial_bounds (g : pgeom R) s pos d pt m :
  vdot (pg_forward g) (pg_forward g) = 1 -> 0 < pg_d g -> 0 <= m ->
  Forall (fun v => 0 <= v <= m) (p_Vxi s) ->
  0 <= vdot (point_velocity g s (wing_point pos (pg_forward g) d pt)) (vopp (pg_forward g)) <= 2 * m.
Proof.
  intros Hf Hd Hm Hv. unfold point_velocity.
  set (w := wing_point pos (pg_forward g) d pt). destruct (wp_in w) eqn:K.
  2:{ unfold vdot, vzero. cbn [vx vy vz]. rnum. lra. }
  assert (Ht : wp_t w < 0).
  { unfold w, wing_point in K. cbn [wp_in] in K. apply andb_true_iff in K. destruct K as [_ K]. rnum.
    apply Rltb_true in K. exact K. }
  pose proof (development_bounds (- wp_t w) (pg_d g / 2)) as Hk.
  assert (Hk' : 1 < development (- wp_t w) (pg_d g / 2) < 2) by (apply Hk; lra). clear Hk.
  set (kd := development (- wp_t w)%num (pg_d g / n2)%num). change (development (- wp_t w) (pg_d g / 2)) with kd in Hk'.
  match goal with |- context [vadd (vscale ?a _) (vscale ?b _)] => set (Vt := a); set (Vx := b) end.
  assert (HVx : 0 <= Vx <= 2 * m).
  { apply interpolate_bounds; [|rnum; lra|rnum; lra].
    apply (combine_snd_forall (fun y => 0 <= y <= 2 * m)). rewrite Forall_forall in *. intros y Hy. apply in_map_iff in Hy. destruct Hy as (v & <- & Hin).
    specialize (Hv v Hin). rnum. split.
    - apply Rmult_le_pos; lra.
    - apply Rle_trans with (m * kd); [apply Rmult_le_compat_r; lra|]. rewrite Rmult_comm. apply Rmult_le_compat_r; lra. }
  replace (vdot (vadd (vscale Vt (wp_tangent w)) (vscale Vx (slip_dir g))) (vopp (pg_forward g))) with Vx; [exact HVx|].
  rewrite vdot_add_l, !vdot_scale_l.
  assert (T0 : vdot (wp_tangent w) (vopp (pg_forward g)) = 0).
  { rewrite vdot_comm, vopp_dot, vdot_comm. unfold w, wing_point. cbn [wp_tangent].
    rewrite vdivs_scale, vdot_scale_l, vcross_dot_l. ring. }
  assert (F1 : vdot (slip_dir g) (vopp (pg_forward g)) = 1) by (unfold slip_dir; now apply vopp_unit).
  rewrite T0, F1. ring.
Qed.

(** rows of the velocity array *)
Definition added (gs : list (pgeom R)) (ss : list (pstate R)) (pt : vec3 R) : vec3 R :=
  vsum (map2 (fun g s => point_velocity g s (wing_point (pg_pos g) (pg_forward g) (pg_d g) pt)) gs ss).
Lemma slipstreams_rows gs : forall (ss : list (pstate R)) rows i rho v pts pt,
  nth_error rows i = Some (rho, v) -> nth_error pts i = Some pt ->
  (forall g, In g gs -> pg_wing g = Some (map (wing_point (pg_pos g) (pg_forward g) (pg_d g)) pts)) ->
  nth_error (slipstreams gs ss rows) i = Some (rho, vadd v (added gs ss pt)).
Proof.
  unfold added.
  induction gs as [|g gs IH]; intros ss rows i rho v pts pt Hr Hp H.
  - cbn [slipstreams map2]. now rewrite vsum_nil, vadd_0_r.
  - destruct ss as [|s ss]; [cbn [slipstreams map2]; now rewrite vsum_nil, vadd_0_r|].
    cbn [slipstreams map2]. rewrite vsum_cons, vadd_assoc.
    eapply IH; [|exact Hp|intros g' Hg; apply H; now right].
    unfold add_slipstream. rewrite (H g (or_introl eq_refl)), nth_error_map2, Hr, nth_error_map, Hp. reflexivity.
Qed.
Lemma make_pgeom_wing E u pts (p : prop R) g : make_pgeom E u (Some pts) p = Ok g ->
  pg_wing g = Some (map (wing_point (pg_pos g) (pg_forward g) (pg_d g)) pts).
Proof.
  intros H. destruct (make_pgeom_data _ _ _ _ _ H) as (E1 & E2 & E3 & _ & _ & _ & E7). now rewrite E7, E1, E2, E3.
Qed.
Lemma C55_rows_lemma E (pl : airplane R) pts gs cg a ps ss r rows ss' i pt V :
  make_props E pl (Some pts) = Ok gs ->
  props_solve E cg (Some (List.length pts)) (Some a) ps gs ss = (Ok (r, Some rows), ss') ->
  dget (an a) "V_mag" = Some V -> 0 < V ->
  cos (degrees (entry (an a) "alpha")) <> 0 \/ cos (degrees (entry (an a) "beta")) <> 0 ->
  nth_error pts i = Some pt ->
  exists rho v, nth_error rows i = Some (rho, vadd v (added gs ss' pt)) /\ dget (an a) "rho" = Some rho /\
    airflow V (degrees (entry (an a) "alpha")) (degrees (entry (an a) "beta")) v.
Proof.
  intros Hg H HV HV0 Hs Hi. unfold props_solve, sbind in H.
  destruct (calc_forces E cg (Some a) ps gs ss) as [[q|e] s1]; [|discriminate].
  unfold slift in H. destruct (velocity_field (Some a) (List.length pts)) as [rows0|e] eqn:K; [|discriminate].
  unfold sget, sret in H. apply pair_equal_spec in H. destruct H as [H Hss]. injection H as _ H. subst rows ss'.
  unfold velocity_field, opt_truthy in K.
  replace (aero_truthy a) with true in K.
  2:{ symmetry. unfold aero_truthy. apply orb_true_iff. left. unfold dtruthy.
      destruct (an a) as [|e0 l0]; [discriminate HV|reflexivity]. }
  rewrite HV in K. destruct (dget (an a) "rho") as [rho|]; [|discriminate]. injection K as K. subst rows0.
  rewrite !dgetd_entry. set (v := vscale V _).
  exists rho, v. split; [|split; [reflexivity|]].
  - eapply slipstreams_rows; [|exact Hi|].
    + assert (Hlt : (i < List.length pts)%nat) by (apply nth_error_Some; congruence).
      clear -Hlt. revert i Hlt. generalize (List.length pts). intros n. induction n as [|n IH]; intros i Hi; [lia|].
      destruct i as [|i]; [reflexivity|]. cbn. apply IH. lia.
    + intros g Hin. unfold make_props in Hg. destruct (rmap_inv _ _ _ Hg g Hin) as (p & P1 & P2).
      unfold rbind in P2. destruct (get_units pl) as [u|]; [|discriminate]. eapply make_pgeom_wing; eauto.
  - apply airflow_scale; [exact HV0|]. apply freestream_airflow; [lra|]. apply not_both_right. exact Hs.
Qed.

(** contraction from the hub outwards *)
Lemma contracted_tube Vinf kd r v l : 0 < Vinf -> 1 <= kd -> 0 <= r -> 0 <= v ->
  StronglySorted Rlt (r :: map fst l) -> Forall (fun q => 0 <= snd q) l ->
  exists rps, contracted (T := R) Vinf kd ((r, v) :: l) = r :: rps /\ tube Vinf kd r r v l rps.
Proof.
  intros HV Hk Hr Hv Hs Hp. cbn [contracted]. eexists. split; [reflexivity|].
  inversion Hs as [|x y S1 S2]; subst. apply contracted_from_tube; auto; try lra.
  - intros i r' H. rewrite Forall_forall in S2. apply S2. eapply nth_error_In; eauto.
  - clear -S1. intros i j ri rj Hij H1 H2. revert i j Hij H1 H2. induction S1 as [|a l0 S IH Fa]; intros i j Hij H1 H2.
    + destruct i; discriminate.
    + destruct j as [|j]; [lia|]. destruct i as [|i]; cbn in H1, H2.
      * injection H1 as <-. rewrite Forall_forall in Fa. apply Fa. eapply nth_error_In; eauto.
      * eapply IH; [|exact H1|exact H2]. lia.
Qed.

(** *** C54 *)
Lemma number_pnum v x : number v x -> pnum v = Ok (x : R).
Proof. intros [->|(z & -> & ->)]; reflexivity. Qed.
Lemma number_truthy v x : number v x -> ptruthy v = negb (Reqb x 0).
Proof.
  intros [->|(z & -> & ->)]; cbn [ptruthy]; [reflexivity|]. f_equal. unfold Reqb.
  destruct (Req_EM_T (IZR z) 0) as [E|E]; [apply eq_IZR in E; subst; reflexivity|].
  destruct (Z.eqb_spec z 0); [subst; congruence|reflexivity].
Qed.
Lemma C54_lemma E u wp (p : prop R) g z x i :
  make_pgeom E u wp p = Ok g -> 0 < pr_diameter p -> In z (pg_stations g) ->
  chord_angle (pe_table E) p (z_zeta z) x -> increment p i ->
  0 < z_zeta z -> - (PI / 2) < z_al0 z < PI / 2 -> - (PI / 2) < x - z_al0 z < PI / 2 ->
  z_beta z = x - z_al0 z + i.
Proof.
  intros Hg Hd Hin Hx Hi Hz Ha Hb.
  unfold make_pgeom, rbind in Hg. destruct (zetas p) as [zs|]; [|discriminate].
  destruct (coefficients p zs) as [c|]; [|discriminate].
  destruct (pitch E p) as [b|] eqn:Kp; [|discriminate].
  destruct (chord E p zs) as [cb|]; [|discriminate].
  destruct (make_motor p) as [m|]; [|discriminate].
  apply (f_equal (fun o => match o with Ok y => y | Err _ => g end)) in Hg. subst g. cbn [pg_stations] in Hin.
  apply in_map_iff in Hin. destruct Hin as (ze & <- & _). unfold make_station in *. cbn [z_beta z_zeta z_al0] in *.
  set (al0 := k_al0 (c ze)) in *.
  assert (Hc : cos al0 <> 0) by (apply Rgt_not_eq, cos_gt_0; lra).
  assert (Hr : 0 < radius (pr_diameter p) ze).
  { unfold radius. rewrite half. rnum. apply Rmult_lt_0_compat; [apply Rmult_lt_0_compat|]; lra. }
  unfold pitch, rbind in Kp.
  assert (Kinc : (match dget (pr_pitch p) "pitch_increment" with
           | Some v => if ptruthy v then match pnum v with Ok x => Ok (Some (nrad x)) | Err e => Err e end else Ok None
           | None => Ok None end) = Ok (if Reqb i 0 then None else Some i)).
  { inversion Hi as [Hn|v y Hv Hy]; subst i.
    - rewrite Hn. replace (Reqb 0 0) with true by (symmetry; now apply Reqb_true). reflexivity.
    - rewrite Hv, (number_truthy _ _ Hy), (number_pnum _ _ Hy). unfold degrees.
      destruct (Reqb y 0) eqn:Ky; cbn [negb].
      + apply Reqb_true in Ky. subst y. replace (Reqb (0 * PI / 180) 0) with true; [reflexivity|].
        symmetry. apply Reqb_true. field.
      + apply Reqb_false in Ky. replace (Reqb (y * PI / 180) 0) with false; [reflexivity|].
        symmetry. apply Reqb_false. intros K. apply Ky. apply (Rmult_eq_reg_r (PI / 180)).
        * rewrite Rmult_0_l, <- K. field.
        * pose proof PI_RGT_0. lra. }
  rewrite Kinc in Kp. clear Kinc.
  assert (Hadd : forall w : R, match (if Reqb i 0 then None else Some i) with Some j => (w + j)%num | None => w end = w + i).
  { intros w. destruct (Reqb i 0) eqn:Ki; [apply Reqb_true in Ki; subst i; ring|reflexivity]. }
  assert (Ok_inj : forall f : R -> R -> R -> R, Ok f = Ok b -> b = f).
  { intros f H. apply (f_equal (fun o => match o with Ok y => y | Err _ => b end)) in H. congruence. }
  inversion Hx as [Ht|v K Ht Hv Hn|v y Ht Hv Hn|name f Ht Hf Htab Hrange]; subst x; unfold dlookup in Kp; rewrite Ht in Kp;
  cbn [peq_str String.eqb Ascii.eqb Bool.eqb] in Kp.
  - apply Ok_inj in Kp. subst b. rewrite Hadd, half. f_equal.
    replace (1 / 2 / (PI * ze)) with (/ 2 / (PI * ze)) in * by (unfold Rdiv; ring).
    apply aero_beta_spec; auto.
  - rewrite Hv in Kp. rewrite (number_pnum _ _ Hn) in Kp. apply Ok_inj in Kp. subst b. rewrite Hadd. f_equal.
    apply aero_beta_spec; auto.
  - rewrite Hv in Kp. rewrite (number_pnum _ _ Hn) in Kp. apply Ok_inj in Kp. subst b. rewrite Hadd. f_equal.
    apply aero_beta_spec; auto.
  - rewrite Hf in Kp. cbn [pstr] in Kp. rewrite Htab in Kp. apply Ok_inj in Kp. subst b. rewrite Hadd. f_equal.
    rewrite nrad_degrees. apply aero_beta_angle_spec; auto.
Qed.

(** *** A propeller *)
Definition demo_prop : prop R :=
  MkProp "main" (V3 1 0 0) 0 0 2 1 (1 / 5) 2 (VStr "CCW") [("type", VStr "default")] [("type", VStr "default")] [] [].
Definition demo_env : penv R := MkPE (fun _ => Err KeyError) (fun _ _ => 0) (fun _ _ _ => 0) 1.
Lemma demo_zetas : zetas demo_prop = Ok [1 / 5; 999 / 1000].
Proof.
  unfold zetas. cbn [pr_diameter pr_hub pr_nodes demo_prop]. rnum.
  replace (Reqb 1 0) with false by (symmetry; apply Reqb_false; lra). cbn [seq map].
  unfold linspace. cbn [Nat.leb Nat.eqb]. rnum. unfold Rdec.
  apply (f_equal Ok). apply (f_equal2 cons); [|apply (f_equal2 cons); [|reflexivity]].
  - simpl IZR. field.
  - reflexivity.
Qed.
Lemma demo_make E u wp : exists g, make_pgeom E u wp demo_prop = Ok g /\ List.length (pg_stations g) = 2%nat /\ forall z, In z (pg_stations g) ->
    (z_zeta z = 1 / 5 \/ z_zeta z = 999 / 1000) /\ z_al0 z = - 369 / 10000 /\ z_cb z = 75 / 1000 * sqrt (1 - z_zeta z * z_zeta z).
Proof.
  unfold make_pgeom. rewrite demo_zetas. unfold rbind. cbn [coefficients demo_prop pr_airfoils map].
  unfold pitch, chord, make_motor, rbind, dlookup. cbn [demo_prop pr_pitch pr_chord pr_motor pr_diameter].
  cbn [dget dgetd String.eqb Ascii.eqb Bool.eqb peq_str ptruthy].
  eexists. split; [reflexivity|]. cbn [pg_stations map]. split; [reflexivity|].
  intros z [<-|[<-|[]]]; unfold make_station; unfold coef_of, default_airfoil; cbn [z_zeta z_al0 z_cb k_al0 af_alpha_L0]; rnum; unfold Rdec; simpl IZR.
  - split; [now left|]. split; [lra|]. lra.
  - split; [now right|]. split; [lra|]. lra.
Qed.
Lemma PI_gt_3 : 3 < PI.
Proof. pose proof PI2_3_2. lra. Qed.
Lemma demo_stations E u wp g : make_pgeom E u wp demo_prop = Ok g ->
  forall z, In z (pg_stations g) -> 0 < z_zeta z /\ z_cb z <> 0 /\ z_beta z = atan ((1 / 2) / (PI * z_zeta z)) + 369 / 10000.
Proof.
  intros Hg z Hin. destruct (demo_make E u wp) as (g' & Hg' & _ & Hz).
  assert (g' = g) by congruence. subst g'. destruct (Hz z Hin) as (H1 & H2 & H3).
  assert (Hp : 1 / 5 <= z_zeta z <= 999 / 1000) by (destruct H1 as [->| ->]; lra).
  split; [lra|]. split.
  - rewrite H3. assert (0 < sqrt (1 - z_zeta z * z_zeta z)) by (apply sqrt_lt_R0; nra). nra.
  - pose proof PI_gt_3 as H4.
    assert (Hatan : 0 < atan (1 / 2 / (PI * z_zeta z)) < PI / 4).
    { assert (0 < 1 / 2 / (PI * z_zeta z) < 1).
      { split; [apply Rdiv_lt_0_compat; nra|]. apply (Rmult_lt_reg_r (PI * z_zeta z)); [nra|].
        unfold Rdiv. rewrite Rmult_assoc, Rinv_l by nra. nra. }
      rewrite <- atan_0, <- atan_1. split; apply atan_increasing; lra. }
    rewrite (C54_lemma E u wp demo_prop g z (atan (1 / 2 / (PI * z_zeta z))) 0 Hg).
    + rewrite H2. lra.
    + cbn; lra.
    + exact Hin.
    + apply CA_default. reflexivity.
    + apply IN_none. reflexivity.
    + lra.
    + rewrite H2. lra.
    + rewrite H2. lra.
Qed.
