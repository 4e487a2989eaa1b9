(** Propeller theorems over the real numbers, part 4: totals, forces, slipstream field. *)
From Coq Require Import Reals ZArith String Bool Arith Lia Lra List.
From Verif Require Import Base Num RVec Geometry Grid LLModel PropModel Spec_Grid Spec_LL Spec_Prop
     Prop_state LL_R LL_thm2 Prop_thm Prop_thm2 Prop_thm3.
Import ListNotations.
Local Open Scope string_scope.
Local Open Scope R_scope.

Lemma not_both_right a b : cos a <> 0 \/ cos b <> 0 -> sideslip_ok a b.
Proof.
  intros H. unfold sideslip_ok. pose proof (sin2_cos2 a) as A. pose proof (sin2_cos2 b) as B. unfold Rsqr in A, B.
  replace (1 - sin a * sin a * sin b * sin b) with (cos a * cos a + sin a * sin a * (cos b * cos b))
    by (replace (cos b * cos b) with (1 - sin b * sin b) by lra;
        replace (cos a * cos a) with (1 - sin a * sin a) by lra; ring).
  assert (P1 : 0 <= cos a * cos a) by apply Rle_0_sqr.
  assert (P2 : 0 <= sin a * sin a) by apply Rle_0_sqr.
  assert (P3 : 0 <= cos b * cos b) by apply Rle_0_sqr.
  assert (P4 : 0 <= sin a * sin a * (cos b * cos b)) by (apply Rmult_le_pos; lra).
  destruct (Req_dec (cos a) 0) as [E|E].
  - destruct H as [H|H]; [congruence|].
    assert (0 < cos b * cos b) by (apply Rsqr_pos_lt; exact H).
    rewrite E in *. replace (sin a * sin a) with 1 by lra. lra.
  - assert (0 < cos a * cos a) by (apply Rsqr_pos_lt; exact E). lra.
Qed.
Lemma airflow_1_unit a b v : airflow 1 a b v -> vdot v v = 1.
Proof. intros [H _]. rewrite <- vnorm_sq, H. ring. Qed.
Lemma airflow_scale V a b v : 0 < V -> airflow 1 a b v -> airflow V a b (vscale V v).
Proof.
  intros HV [H1 (m & Hm & H2)]. split.
  - rewrite vnorm_scale, H1, Rabs_pos_eq by lra. ring.
  - exists (V * m). split; [apply Rmult_lt_0_compat; lra|]. rewrite H2 at 1. rewrite vscale_scale.
    f_equal. ring.
Qed.

(** *** C51 *)
Lemma n2_pow (x : R) : (x * x)%num = x ^ 2. Proof. rnum. ring. Qed.
Lemma fourth_pow (x : R) : fourth x = x ^ 4. Proof. unfold fourth. rnum. ring. Qed.
Lemma fifth_pow (x : R) : fifth x = x ^ 5. Proof. unfold fifth. rnum. ring. Qed.

Lemma acos_zero x : -1 <= x <= 1 -> acos x = 0 -> x = 1.
Proof. intros H E. rewrite <- (cos_acos x H), E. apply cos_0. Qed.

Lemma resolve_forces g cg s F M Th l :
  resolve (T := R) g cg s = Ok (F, M, Th, l) ->
  vdot (pg_forward g) (pg_forward g) = 1 -> vdot (p_v s) (p_v s) = 1 ->
  let f := pg_forward g in let d := pg_d g in
  let r := vsub (pg_pos g) cg in
  let k4 := p_rho s * p_n s ^ 2 * d ^ 4 in let k5 := p_rho s * p_n s ^ 2 * d ^ 5 in
  Th = k4 * p_CT s /\ l = - pg_rot g * (k5 * p_Cl s) /\
  exists x, angle_between f (vopp (p_v s)) x /\
    (x = 0 -> F = vscale Th f /\ M = vadd (vcross r F) (vscale l f)) /\
    (0 < x < PI -> exists e, along_disk (p_v s) f e /\
       F = vadd (vscale Th f) (vscale (k4 * p_CNa s * x) e) /\
       M = vadd (vadd (vcross r F) (vscale (pg_rot g * (k5 * p_Cna s * x)) e)) (vscale l f)).
Proof.
  intros H Hf Hv. cbv zeta. unfold resolve in H.
  rewrite (vec_angle_ok _ _ Hf (vopp_unit _ Hv)) in H.
  pose proof (acos_angle _ _ Hf (vopp_unit _ Hv)) as Hang.
  set (x := acos _) in *. unfold rbind in H. rewrite !n2_pow, fourth_pow, fifth_pow in H.
  set (f := pg_forward g) in *. set (w := vopp (p_v s)) in *.
  assert (Hoff : forall F r : vec3 R, V3 (vz F * vy r - vy F * vz r)%num (vx F * vz r - vz F * vx r)%num
                                 (vy F * vx r - vx F * vy r)%num = vcross r F).
  { intros A B. unfold vcross. f_equal; rnum; ring. }
  assert (Z : (x =? n0)%num = true \/ (x =? n0)%num = false) by (destruct (x =? n0)%num; auto).
  destruct Z as [Z|Z]; rewrite Z in H; rnum.
  - apply Reqb_true in Z. apply (f_equal (fun o => match o with Ok y => y | Err _ => (F, M, Th, l) end)) in H.
    cbv iota beta in H. rewrite Hoff in H.
    apply pair_equal_spec in H. destruct H as [H E4]. apply pair_equal_spec in H. destruct H as [H E3].
    apply pair_equal_spec in H. destruct H as [E1 E2].
    assert (EF : F = vscale Th f).
    { rewrite <- E1, <- E3, vscale_0, vadd_0_r. reflexivity. }
    split; [rewrite <- E3; ring|]. split; [rewrite <- E4; ring|].
    exists x. split; [exact Hang|]. split; [intros _|lra]. split; [exact EF|].
    rewrite <- E2, <- E1, !vscale_0, !vadd_0_r, <- E4. reflexivity.
  - apply Reqb_false in Z. apply (f_equal (fun o => match o with Ok y => y | Err _ => (F, M, Th, l) end)) in H.
    cbv iota beta in H. rewrite Hoff in H.
    apply pair_equal_spec in H. destruct H as [H E4]. apply pair_equal_spec in H. destruct H as [H E3].
    apply pair_equal_spec in H. destruct H as [E1 E2].
    split; [rewrite <- E3; ring|]. split; [rewrite <- E4; ring|].
    exists x. split; [exact Hang|]. split; [congruence|]. intros Hx.
    pose proof (disk_direction (p_v s) f Hf) as Ed. fold w in Ed. rewrite Ed in E1, E2.
    set (n := vsub (p_v s) (vscale (vdot (p_v s) f) f)) in *.
    assert (En : sqrt (vx n ^ 2 + vy n ^ 2 + vz n ^ 2) = vnorm n).
    { unfold vnorm, vdot. rnum. f_equal. ring. }
    rnum. rewrite En in E1, E2.
    assert (Hn0 : n <> vzero).
    { intros K. assert (K2 : vdot n n = 0) by (rewrite K; unfold vdot; cbn [vx vy vz vzero]; rnum; ring).
      assert (K3 : vdot n n = 1 - vdot (p_v s) f * vdot (p_v s) f).
      { unfold n. rewrite vdot_sub_l, vdot_scale_l, (vdot_comm (p_v s) (vsub _ _)), (vdot_comm f (vsub _ _)), !vdot_sub_l,
          !vdot_scale_l, Hf, Hv, (vdot_comm f (p_v s)). ring. }
      destruct Hang as [_ Hc]. unfold w in Hc. rewrite (vdot_comm f), vopp_dot in Hc.
      assert (Hsq : cos x * cos x = 1) by (rewrite Hc; lra).
      pose proof (sin2_cos2 x) as S2. unfold Rsqr in S2.
      assert (0 < sin x) by (apply sin_gt_0; lra). nra. }
    exists (vdivs n (vnorm n)). split; [apply disk_unit; [exact Hf|exact Hn0]|].
    rewrite <- E3, <- E4. split.
    + rewrite <- E1. reflexivity.
    + rewrite <- E2, E1. reflexivity.
Qed.

Lemma make_pgeom_data E u wp (p : prop R) g : make_pgeom E u wp p = Ok g ->
  pg_forward g = propeller_axis (pr_elevation p) (pr_heading p) /\ pg_pos g = pr_position p /\
  pg_d g = pr_diameter p /\ pg_rot g = rot_dir (pr_rot_dir p) /\ pg_name g = pr_name p /\ pg_k g = pr_blades p /\
  pg_wing g = (match wp with
               | Some pts => Some (map (wing_point (pr_position p)
                                         (propeller_axis (pr_elevation p) (pr_heading p)) (pr_diameter p)) pts)
               | None => None end).
Proof.
  unfold make_pgeom, rbind. destruct (zetas p) as [zs|]; [|discriminate].
  destruct (coefficients p zs) as [c|]; [|discriminate].
  destruct (pitch E p) as [b|]; [|discriminate].
  destruct (chord E p zs) as [cb|]; [|discriminate].
  destruct (make_motor p) as [m|]; [|discriminate].
  intros H. apply (f_equal (fun o => match o with Ok y => y | Err _ => g end)) in H. subst g.
  cbn [pg_forward pg_pos pg_d pg_rot pg_name pg_k pg_wing]. repeat split; reflexivity.
Qed.

Lemma set_forces_fields (q : vec3 R * vec3 R * R * R) s :
  p_v (set_forces q s) = p_v s /\ p_rho (set_forces q s) = p_rho s /\ p_n (set_forces q s) = p_n s /\
  p_CT (set_forces q s) = p_CT s /\ p_Cl (set_forces q s) = p_Cl s /\ p_CNa (set_forces q s) = p_CNa s /\
  p_Cna (set_forces q s) = p_Cna s /\ p_Vinf (set_forces q s) = p_Vinf s.
Proof. destruct q as [[[? ?] ?] ?]. repeat split. Qed.

(** flow of a propeller after a returning run *)
Lemma run_prop_flow E cg a ps g s q s' V :
  run_prop (T := R) E cg (Some a) ps g s = (Ok q, s') -> dget (an a) "V_mag" = Some V ->
  exists rho, dget (an a) "rho" = Some rho /\
    flow_of s' = (freestream 1 (entry (an a) "alpha") (entry (an a) "beta"), rho, V).
Proof.
  intros H HV. apply run_prop_steps in H. destruct H as (s1 & s2 & s3 & K1 & K2 & K3 & _ & ->).
  destruct (p_set_aero_flow _ _ _ _ K1 HV) as (rho & Hr & Hf & _). exists rho. split; [exact Hr|].
  apply p_set_prop_point in K2. destruct K2 as [F2 _].
  apply solved_core in K3. destruct K3 as (_ & _ & C3).
  rewrite <- Hf, <- F2, <- C3. destruct q as [[[? ?] ?] ?]. reflexivity.
Qed.

Lemma C51_lemma E u wp (p : prop R) g cg a ps s s' V F M Th l :
  make_pgeom E u wp p = Ok g ->
  run_prop E cg (Some a) ps g s = (Ok (F, M, Th, l), s') ->
  dget (an a) "V_mag" = Some V ->
  cos (degrees (entry (an a) "alpha")) <> 0 \/ cos (degrees (entry (an a) "beta")) <> 0 ->
  let f := propeller_axis (pr_elevation p) (pr_heading p) in
  let d := pr_diameter p in let rot := rot_dir (pr_rot_dir p) in
  let r := vsub (pr_position p) cg in
  let v := p_v s' in
  let k4 := p_rho s' * p_n s' ^ 2 * d ^ 4 in let k5 := p_rho s' * p_n s' ^ 2 * d ^ 5 in
  airflow 1 (degrees (entry (an a) "alpha")) (degrees (entry (an a) "beta")) v /\
  dget (an a) "rho" = Some (p_rho s') /\ p_Vinf s' = V /\
  vdot f f = 1 /\
  Th = k4 * p_CT s' /\ l = - rot * (k5 * p_Cl s') /\
  exists x, angle_between f (vopp v) x /\
    (x = 0 -> F = vscale Th f /\ M = vadd (vcross r F) (vscale l f)) /\
    (0 < x < PI -> exists e, along_disk v f e /\
       F = vadd (vscale Th f) (vscale (k4 * p_CNa s' * x) e) /\
       M = vadd (vadd (vcross r F) (vscale (rot * (k5 * p_Cna s' * x)) e)) (vscale l f)).
Proof.
  intros Hg H HV Hs. destruct (make_pgeom_data _ _ _ _ _ Hg) as (E1 & E2 & E3 & E4 & _).
  destruct (run_prop_flow _ _ _ _ _ _ _ _ _ H HV) as (rho & Hr & Hf).
  apply run_prop_steps in H. destruct H as (s1 & s2 & s3 & _ & _ & _ & K & Es).
  pose proof (set_forces_fields (F, M, Th, l) (find_Vi (pg_stations g) s3)) as Q. rewrite <- Es in Q.
  destruct Q as (Q1 & Q2 & Q3 & Q4 & Q5 & Q6 & Q7 & Q8).
  set (s4 := find_Vi (pg_stations g) s3) in *.
  unfold flow_of in Hf. apply pair_equal_spec in Hf. destruct Hf as [Hf FV]. apply pair_equal_spec in Hf.
  destruct Hf as [Fv Fr].
  assert (Hair : airflow 1 (degrees (entry (an a) "alpha")) (degrees (entry (an a) "beta")) (p_v s')).
  { rewrite Fv. apply freestream_airflow; [lra|]. apply not_both_right. exact Hs. }
  assert (Hv : vdot (p_v s4) (p_v s4) = 1) by (rewrite <- Q1; exact (airflow_1_unit _ _ _ Hair)).
  pose proof (propeller_axis_unit (pr_elevation p) (pr_heading p)) as Hu.
  assert (Hu' : vdot (pg_forward g) (pg_forward g) = 1) by (rewrite E1; exact Hu).
  pose proof (resolve_forces g cg s4 F M Th l K Hu' Hv) as Z. cbv zeta in *.
  rewrite E1, E2, E3, E4, <- Q1, <- Q2, <- Q3, <- Q4, <- Q5, <- Q6, <- Q7 in Z.
  destruct Z as (Z1 & Z2 & Z3).
  split; [exact Hair|]. split; [now rewrite Fr|]. split; [exact FV|]. split; [exact Hu|]. auto.
Qed.

(** reversed rotation *)
Definition reversed (g : pgeom R) : pgeom R :=
  MkPG (pg_name g) (pg_pos g) (pg_d g) (pg_hd g) (pg_theta g) (pg_gamma g) (pg_forward g) (- pg_rot g)
       (pg_stations g) (pg_k g) (pg_motor g) (pg_wing g) (pg_units g).
Lemma make_pgeom_reversed E u wp (p : prop R) g v w : make_pgeom E u wp (with_rotation v p) = Ok g ->
  rot_dir (T := R) w = - rot_dir v -> make_pgeom E u wp (with_rotation w p) = Ok (reversed g).
Proof.
  unfold make_pgeom, rbind. intros H Hw.
  change (zetas (with_rotation v p)) with (zetas p) in H. change (zetas (with_rotation w p)) with (zetas p).
  destruct (zetas p) as [zs|]; [|discriminate].
  change (coefficients (with_rotation v p) zs) with (coefficients p zs) in H.
  change (coefficients (with_rotation w p) zs) with (coefficients p zs).
  destruct (coefficients p zs) as [c|]; [|discriminate].
  change (pitch E (with_rotation v p)) with (pitch E p) in H. change (pitch E (with_rotation w p)) with (pitch E p).
  destruct (pitch E p) as [b|]; [|discriminate].
  change (chord E (with_rotation v p) zs) with (chord E p zs) in H. change (chord E (with_rotation w p) zs) with (chord E p zs).
  destruct (chord E p zs) as [cb|]; [|discriminate].
  change (make_motor (with_rotation v p)) with (make_motor p) in H. change (make_motor (with_rotation w p)) with (make_motor p).
  destruct (make_motor p) as [m|]; [|discriminate].
  apply (f_equal (fun o => match o with Ok y => y | Err _ => g end)) in H. subst g.
  unfold reversed. cbn [pg_name pg_pos pg_d pg_hd pg_theta pg_gamma pg_forward pg_rot pg_stations pg_k pg_motor pg_wing pg_units].
  change (pr_rot_dir (with_rotation v p)) with v. change (pr_rot_dir (with_rotation w p)) with w.
  rewrite Hw. reflexivity.
Qed.
Lemma find_coefficients_rev E g : find_coefficients (T := R) E (reversed g) = find_coefficients E g.
Proof. reflexivity. Qed.
Lemma rate_loop_ext fuel (f f' : R -> st (pstate R) R) : (forall x s, f x s = f' x s) ->
  forall x0 y0 x1 y1 s, rate_loop fuel f x0 y0 x1 y1 s = rate_loop fuel f' x0 y0 x1 y1 s.
Proof.
  intros H. induction fuel as [|fuel IH]; intros; [reflexivity|]. cbn [rate_loop].
  destruct (nltb _ _); [reflexivity|]. unfold sbind. rewrite H. destruct (f' _ _) as [[y|e] s1]; auto.
Qed.
Lemma state_from_power_rev E g s : state_from_power (T := R) E (reversed g) s = state_from_power E g s.
Proof. reflexivity. Qed.
Lemma resolve_rev g cg s : match resolve (T := R) g cg s, resolve (reversed g) cg s with
  | Ok (F, M, Th, l), Ok (F', M', Th', l') =>
      F' = F /\ Th' = Th /\ l' = - l /\ vadd M M' = vscale 2 (vcross (vsub (pg_pos g) cg) F)
  | Err e, Err e' => e = e'
  | _, _ => False
  end.
Proof.
  unfold resolve, rbind. cbn [reversed pg_forward pg_d pg_pos pg_rot].
  destruct (vec_angle _ _) as [x|e]; [|reflexivity].
  destruct (x =? n0)%num.
  - split; [reflexivity|]. split; [reflexivity|]. rnum. split; [ring|].
    unfold vadd, vscale, vcross, vsub, vzero. cbn [vx vy vz]. f_equal; rnum; ring.
  - match goal with |- context [vdivs ?a ?b] => set (e := vdivs a b) end.
    split; [reflexivity|]. split; [reflexivity|]. rnum. split; [ring|].
    unfold vadd, vscale, vcross, vsub. cbn [vx vy vz]. f_equal; rnum; ring.
Qed.
Lemma C51_reversed E u wp (p : prop R) g g' v w cg aero ps s F M Th l s' :
  make_pgeom E u wp (with_rotation v p) = Ok g -> make_pgeom E u wp (with_rotation w p) = Ok g' ->
  rot_dir (T := R) w = - rot_dir v ->
  run_prop E cg aero ps g s = (Ok (F, M, Th, l), s') ->
  exists M' s'', run_prop E cg aero ps g' s = (Ok (F, M', Th, - l), s'') /\
    vadd M M' = vscale 2 (vcross (vsub (pr_position p) cg) F).
Proof.
  intros Hg Hg' Hw H. rewrite (make_pgeom_reversed _ _ _ _ _ _ _ Hg Hw) in Hg'.
  apply (f_equal (fun o => match o with Ok y => y | Err _ => g' end)) in Hg'. subst g'.
  destruct (make_pgeom_data _ _ _ _ _ Hg) as (_ & E2 & _). change (pr_position (with_rotation v p)) with (pr_position p) in E2.
  apply run_prop_steps in H. destruct H as (s1 & s2 & s3 & K1 & K2 & K3 & K & Es).
  unfold run_prop, sbind. rewrite K1.
  change (pg_d (reversed g)) with (pg_d g). change (pg_name (reversed g)) with (pg_name g). rewrite K2.
  unfold p_calc_forces, sbind, sget. 
  assert (K3' : (match p_power s2 with
     | Some _ => state_from_power E (reversed g)
     | None => match p_throttle s2 with Some _ => state_from_power E (reversed g) | None => find_coefficients E (reversed g) end
     end) s2 = (Ok tt, s3)).
  { rewrite <- K3. destruct (p_power s2), (p_throttle s2); reflexivity. }
  rewrite K3'. unfold smod, slift, sret. change (pg_stations (reversed g)) with (pg_stations g).
  pose proof (resolve_rev g cg (find_Vi (pg_stations g) s3)) as Q. rewrite K in Q.
  destruct (resolve (reversed g) cg (find_Vi (pg_stations g) s3)) as [[[[F' M'] Th'] l']|e]; [|contradiction].
  destruct Q as (-> & -> & -> & Q). rewrite E2 in Q.
  exists M', (set_forces (F, M', Th, - l) (find_Vi (pg_stations g) s3)). split; [|exact Q].
  reflexivity.
Qed.

(** *** C48 and C20 *)
Lemma fold_vadd {A} (h : A -> vec3 R) l : forall a, fold_left (fun a q => vadd a (h q)) l a = vadd a (vsum (map h l)).
Proof.
  induction l as [|x l IH]; intros a; cbn [fold_left map]; [now rewrite vsum_nil, vadd_0_r|].
  now rewrite IH, vsum_cons, vadd_assoc.
Qed.
Lemma last_of_map {A B} (f : A -> B) l : last_of (map f l) = option_map f (last_of l).
Proof. unfold last_of. rewrite map_length. apply nth_error_map. Qed.
Lemma C48_lemma E cg n aero ps gs ss r ss' :
  props_solve (T := R) E cg n aero ps gs ss = (Ok r, ss') -> List.length ss = List.length gs ->
  List.length ss' = List.length gs /\
  force_of (pt_fm (fst r)) = vsum (map (@p_F R) ss') /\
  moment_of (pt_fm (fst r)) = vsum (map (@p_M R) ss') /\
  Some (pt_thrust (fst r)) = option_map (@p_T R) (last_of ss') /\
  Some (pt_torque (fst r)) = option_map (@p_l R) (last_of ss') /\
  exists a l d s, aero = Some a /\
    wind_axes (freestream 1 (entry (an a) "alpha") (entry (an a) "beta")) (force_of (pt_fm (fst r))) = (l, d, s) /\
    FL (pt_fm (fst r)) = l /\ FD (pt_fm (fst r)) = d /\ FS (pt_fm (fst r)) = s.
Proof.
  intros H Hl. apply props_solve_calc, calc_forces_run in H.
  destruct H as (qs & a & H & -> & F & M & Th & l & HL & Er).
  destruct (run_props_states _ _ _ _ _ _ _ _ H Hl) as (A & B & _).
  split; [exact A|]. rewrite Er. cbn [pt_fm pt_thrust pt_torque].
  rewrite !fold_vadd, !vadd_0_l.
  rewrite B, last_of_map in HL. destruct (last_of ss') as [sl|]; [|discriminate].
  cbn [option_map] in HL. injection HL as HF HM HT Hl'.
  set (u := freestream _ _ _).
  pose proof (make_fm_force u (vsum (map (fun q => fst (fst (fst q))) qs)) (vsum (map (fun q => snd (fst (fst q))) qs))) as (E1 & E2 & E3).
  rewrite E1, E2. rewrite B at 1 2. rewrite !map_map. cbn [fst snd].
  split; [reflexivity|]. split; [reflexivity|]. cbn [option_map].
  split; [congruence|]. split; [congruence|].
  exists a. do 3 eexists. split; [reflexivity|].
  assert (Eu : freestream 1 (entry (an a) "alpha") (entry (an a) "beta") = u).
  { unfold u. rewrite !dgetd_entry. reflexivity. }
  rewrite Eu. split; [exact E3|]. auto.
Qed.

Lemma C20_props_lemma E cg n a ps gs ss r ss' :
  props_solve (T := R) E cg n (Some a) ps gs ss = (Ok r, ss') -> List.length ss = List.length gs ->
  cos (degrees (entry (an a) "beta")) <> 0 ->
  exists u l sd, airflow 1 (degrees (entry (an a) "alpha")) (degrees (entry (an a) "beta")) u /\ wind_frame u l sd /\
    let f := pt_fm (fst r) in
    FL f = vdot (force_of f) l /\ FD f = vdot (force_of f) u /\ FS f = vdot (force_of f) sd /\
    FL f ^ 2 + FD f ^ 2 + FS f ^ 2 = FX f ^ 2 + FY f ^ 2 + FZ f ^ 2 /\
    force_of f = vadd (vadd (vscale (FL f) l) (vscale (FD f) u)) (vscale (FS f) sd).
Proof.
  intros H Hl Hb. destruct (C48_lemma _ _ _ _ _ _ _ _ _ H Hl) as (_ & _ & _ & _ & _ & a' & fl & fd & fs & Ea & W & E1 & E2 & E3).
  injection Ea as <-. set (u := freestream _ _ _) in *.
  assert (Hair : airflow 1 (degrees (entry (an a) "alpha")) (degrees (entry (an a) "beta")) u).
  { apply freestream_airflow; [lra|]. apply not_both_right. now right. }
  pose proof (airflow_1_unit _ _ _ Hair) as Hu.
  assert (Hy : not_spanwise u).
  { pose proof (airflow_not_spanwise 1 _ _ _ Rlt_0_1 Hair Hb) as K.
    rewrite (unit_of_airflow _ _ _ _ Hair) in K. unfold not_spanwise, vscale in K. cbn [vx vz] in K. rnum.
    unfold not_spanwise. rewrite Rinv_1, !Rmult_1_l in K. exact K. }
  destruct (wind_axes_frame u Hu Hy) as (l & sd & WF & EE).
  pose proof (wind_axes_norm _ _ _ _ _ Hu Hy W) as Hnorm.
  exists u, l, sd. split; [exact Hair|]. split; [exact WF|]. cbv zeta.
  rewrite EE in W. apply pair_equal_spec in W. destruct W as [W W3]. apply pair_equal_spec in W. destruct W as [W1 W2].
  rewrite E1, E2, E3.
  refine (conj (eq_sym W1) (conj (eq_sym W2) (conj (eq_sym W3) (conj _ _)))).
  - transitivity (vdot (force_of (pt_fm (fst r))) (force_of (pt_fm (fst r)))).
    + rewrite <- Hnorm. ring.
    + unfold force_of, vdot. cbn [vx vy vz]. rnum. ring.
  - rewrite <- W1, <- W2, <- W3. apply frame_expand. exact WF.
Qed.

(** *** C55 *)
Lemma wing_point_in pos f d pt : vdot f f = 1 ->
  wp_in (wing_point (T := R) pos f d pt) = true <-> in_streamtube pos f d pt.
Proof.
  intros Hf. unfold wing_point, in_streamtube. cbn [wp_in].
  set (r := vsub pt pos). set (t := vdot r f).
  assert (Ec : vsub pt (vadd pos (vscale t f)) = vsub r (vscale t f)).
  { unfold r, vsub, vadd, vscale. cbn [vx vy vz]. f_equal; rnum; ring. }
  rewrite Ec.
  assert (En : vnorm (vsub r (vscale t f)) = vnorm (vcross r f)).
  { apply vnorm_eq; [apply vnorm_nonneg|]. rewrite vnorm_sq, lagrange, Hf.
    rewrite vdot_sub_l, vdot_scale_l, (vdot_comm r (vsub _ _)), (vdot_comm f (vsub _ _)), !vdot_sub_l, !vdot_scale_l, Hf.
    rewrite (vdot_comm f r). unfold t. ring. }
  rewrite En. rnum. rewrite Rabs_pos_eq by apply vnorm_nonneg.
  rewrite andb_true_iff, Rleb_true, Rltb_true. tauto.
Qed.
Lemma in_streamtube_dec pos f d pt : vdot f f = 1 -> ~ in_streamtube pos f d pt ->
  wp_in (wing_point (T := R) pos f d pt) = false.
Proof.
  intros Hf H. destruct (wp_in (wing_point pos f d pt)) eqn:K; [|reflexivity].
  exfalso. apply H. now apply (wing_point_in pos f d pt Hf).
Qed.

Lemma slipstreams_out gs : forall (ss : list (pstate R)) rows i row pts pt,
  nth_error rows i = Some row -> nth_error pts i = Some pt ->
  (forall g, In g gs -> exists pos f d, pg_wing g = Some (map (wing_point pos f d) pts) /\
     vdot f f = 1 /\ ~ in_streamtube pos f d pt) ->
  nth_error (slipstreams gs ss rows) i = Some row.
Proof.
  induction gs as [|g gs IH]; intros ss rows i row pts pt Hr Hp H; [exact Hr|].
  destruct ss as [|s ss]; [exact Hr|]. cbn [slipstreams]. eapply IH; eauto; [|intros g' Hg; apply H; now right].
  destruct (H g (or_introl eq_refl)) as (pos & f & d & Hw & Hf & Hn).
  unfold add_slipstream. rewrite Hw.
  assert (K : nth_error (map (wing_point pos f d) pts) i = Some (wing_point pos f d pt)) by now rewrite nth_error_map, Hp.
  revert K. generalize (map (wing_point pos f d) pts). intros wl Hwl.
  clear Hw Hp H. revert rows wl Hr Hwl. induction i as [|i IHi]; intros [|r0 rows] [|w0 wl] Hr Hwl; try discriminate.
  - cbn in *. injection Hr as ->. injection Hwl as ->. unfold point_velocity.
    rewrite (in_streamtube_dec pos f d pt Hf Hn), vadd_0_r. now destruct row.
  - cbn in *. apply IHi; auto.
Qed.
Lemma rmap_inv {A B} (f : A -> res B) l : forall l', rmap f l = Ok l' ->
  forall b, In b l' -> exists a, In a l /\ f a = Ok b.
Proof.
  induction l as [|a l IH]; intros l' H b Hb; cbn [rmap] in H.
  - injection H as <-. destruct Hb.
  - unfold rbind in H. destruct (f a) as [x|] eqn:K; [|discriminate]. destruct (rmap f l) as [y|] eqn:K1; [|discriminate].
    injection H as <-. destruct Hb as [<-|Hb]; [exists a; split; [now left|exact K]|].
    destruct (IH _ eq_refl b Hb) as (a' & A1 & A2). exists a'. split; [now right|exact A2].
Qed.

Lemma C55_lemma E (pl : airplane R) pts gs cg a ps ss r rows ss' i pt V :
  make_props E pl (Some pts) = Ok gs ->
  props_solve E cg (Some (List.length pts)) (Some a) ps gs ss = (Ok (r, Some rows), ss') ->
  dget (an a) "V_mag" = Some V -> 0 < V ->
  cos (degrees (entry (an a) "alpha")) <> 0 \/ cos (degrees (entry (an a) "beta")) <> 0 ->
  nth_error pts i = Some pt ->
  (forall p, In p (map snd (a_props pl)) ->
     ~ in_streamtube (pr_position p) (propeller_axis (pr_elevation p) (pr_heading p)) (pr_diameter p) pt) ->
  exists rho v, nth_error rows i = Some (rho, v) /\ dget (an a) "rho" = Some rho /\
    airflow V (degrees (entry (an a) "alpha")) (degrees (entry (an a) "beta")) v.
Proof.
  intros Hg H HV HV0 Hs Hi Ho. unfold props_solve, sbind in H.
  destruct (calc_forces E cg (Some a) ps gs ss) as [[q|e] s1]; [|discriminate].
  unfold slift in H. destruct (velocity_field (Some a) (List.length pts)) as [rows0|e] eqn:K; [|discriminate].
  unfold sget, sret in H. apply pair_equal_spec in H. destruct H as [H _]. injection H as _ H. subst rows.
  unfold velocity_field, opt_truthy in K.
  replace (aero_truthy a) with true in K.
  2:{ symmetry. unfold aero_truthy. apply orb_true_iff. left. unfold dtruthy.
      destruct (an a) as [|e0 l0]; [discriminate HV|reflexivity]. }
  rewrite HV in K. destruct (dget (an a) "rho") as [rho|]; [|discriminate]. injection K as K. subst rows0.
  rewrite !dgetd_entry. set (v := vscale V _).
  exists rho, v. split; [|split; [reflexivity|]].
  - eapply slipstreams_out; [|exact Hi|].
    + assert (Hlt : (i < List.length pts)%nat) by (apply nth_error_Some; congruence).
      clear -Hlt. revert i Hlt. generalize (List.length pts). intros n. induction n as [|n IH]; intros i Hi; [lia|].
      destruct i as [|i]; [reflexivity|]. cbn. apply IH. lia.
    + intros g Hin. unfold make_props in Hg. destruct (rmap_inv _ _ _ Hg g Hin) as (p & P1 & P2).
      unfold rbind in P2. destruct (get_units pl) as [u|]; [|discriminate].
      destruct (make_pgeom_data _ _ _ _ _ P2) as (_ & _ & _ & _ & _ & _ & Hw).
      do 3 eexists. split; [exact Hw|]. split; [apply propeller_axis_unit|]. exact (Ho p P1).
  - apply airflow_scale; [exact HV0|]. apply freestream_airflow; [lra|]. apply not_both_right. exact Hs.
Qed.
