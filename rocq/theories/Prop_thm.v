(** Propeller theorems over the real numbers, part 1: operating point, forces,
    induced angle, pitch, slipstream. *)
From Coq Require Import Reals ZArith String Bool Arith Lia Lra List.
From Verif Require Import Base Num RVec Geometry Grid LLModel PropModel Spec_Grid Spec_LL Spec_Prop
     Prop_state LL_R.
Import ListNotations.
Local Open Scope R_scope.

(** *** C54 *)
Lemma tan_minus_atan t a : cos a <> 0 -> - (PI / 2) < atan t - a < PI / 2 ->
  1 + t * tan a <> 0 /\ (t - tan a) / (1 + t * tan a) = tan (atan t - a).
Proof.
  intros Ha Hr.
  assert (Hc : 0 < cos (atan t)) by (pose proof (atan_bound t); apply cos_gt_0; lra).
  assert (Hd : 0 < cos (atan t - a)) by (apply cos_gt_0; lra).
  assert (Et : sin (atan t) = t * cos (atan t)).
  { pose proof (tan_atan t) as K. unfold tan in K. rewrite <- K at 2. field. lra. }
  assert (Ec : cos (atan t - a) = cos (atan t) * cos a * (1 + t * tan a)).
  { rewrite cos_minus, Et. unfold tan. field. exact Ha. }
  assert (Hn : 1 + t * tan a <> 0).
  { intros K. rewrite Ec, K, Rmult_0_r in Hd. lra. }
  split; [exact Hn|].
  assert (Es : sin (atan t - a) = cos (atan t) * cos a * (t - tan a)).
  { rewrite sin_minus, Et. unfold tan. field. exact Ha. }
  unfold tan at 3. rewrite Es, Ec. field. split; [exact Hn|]. split; [exact Ha|lra].
Qed.

Lemma aero_beta_spec Kc z a : 0 < z -> cos a <> 0 ->
  - (PI / 2) < atan (Kc / (PI * z)) - a < PI / 2 ->
  aero_beta (T := R) Kc z a = atan (Kc / (PI * z)) - a.
Proof.
  intros Hz Ha Hr. unfold aero_beta. rnum. pose proof PI_RGT_0 as Hpi.
  assert (Hp : 0 < PI * z) by (apply Rmult_lt_0_compat; lra).
  set (t := Kc / (PI * z)) in *.
  destruct (tan_minus_atan t a Ha Hr) as [Hn Et].
  assert (EK : Kc = t * (PI * z)) by (unfold t; field; split; lra).
  unfold Ratan2. destruct (Rlt_dec 0 (PI * z)) as [_|K]; [|lra].
  assert (Hd : PI * z + Kc * tan a = PI * z * (1 + t * tan a)) by (rewrite EK; ring).
  replace (PI * z * ((Kc - PI * z * tan a) / (PI * z + Kc * tan a)) / (PI * z))
    with (tan (atan t - a)).
  - apply atan_tan; lra.
  - rewrite <- Et, Hd, EK. field. split; [exact Hn|]. split; lra.
Qed.

Lemma aero_beta_angle_spec b r a : 0 < r -> cos a <> 0 -> - (PI / 2) < b < PI / 2 ->
  - (PI / 2) < b - a < PI / 2 -> aero_beta_angle (T := R) b r a = b - a.
Proof.
  intros Hz Ha Hb Hr. unfold aero_beta_angle. rnum. pose proof PI_RGT_0 as Hpi.
  assert (Hp : 0 < 2 * PI * r) by (apply Rmult_lt_0_compat; lra).
  rewrite <- (atan_tan b) in Hr by lra.
  destruct (tan_minus_atan (tan b) a Ha Hr) as [Hn Et].
  replace (2 * PI * r * (2 * PI * r * tan b - 2 * PI * r * tan a) /
           (2 * PI * r + 2 * PI * r * tan b * tan a) / (2 * PI * r))
    with (tan (atan (tan b) - a)).
  - rewrite atan_tan by exact Hr. now rewrite atan_tan by lra.
  - rewrite <- Et. field. split; [|split; lra].
    intros K. apply Hn. apply (Rmult_eq_reg_l (2 * PI * r)); lra.
Qed.

(** *** C53 *)
Lemma nsign_sign x : nsign (x : R) = sign x.
Proof.
  unfold nsign, sign. rnum. unfold Rltb. destruct (Rlt_dec 0 x); [reflexivity|].
  destruct (Rlt_dec x 0); [ring|reflexivity].
Qed.
Lemma sign_opp x : sign (- x) = - sign x.
Proof. unfold sign. repeat destruct (Rlt_dec _ _); lra. Qed.
Lemma sign_scale k x : 0 < k -> sign (k * x) = sign x.
Proof.
  intros Hk. unfold sign. destruct (Rlt_dec 0 x) as [H|H].
  - destruct (Rlt_dec 0 (k * x)) as [_|K]; [reflexivity|]. exfalso. apply K. now apply Rmult_lt_0_compat.
  - destruct (Rlt_dec 0 (k * x)) as [K|_].
    + exfalso. apply H. apply (Rmult_lt_reg_l k); lra.
    + destruct (Rlt_dec x 0) as [L|L], (Rlt_dec (k * x) 0) as [M|M]; try reflexivity.
      * exfalso. apply M. rewrite <- (Rmult_0_r k). now apply Rmult_lt_compat_l.
      * exfalso. apply L. apply (Rmult_lt_reg_l k); lra.
Qed.
Lemma sign_cases x : (0 < x /\ sign x = 1) \/ (x < 0 /\ sign x = -1) \/ (x = 0 /\ sign x = 0).
Proof. unfold sign. destruct (Rlt_dec 0 x); [auto|]. destruct (Rlt_dec x 0); [auto|]. right. right. lra. Qed.

Lemma correct_ei_spec beta einf ei : let x := correct_ei (T := R) beta einf ei in
  Rabs x < 1 /\ (beta <> einf -> x = 0 \/ sign x = sign (beta - einf)).
Proof.
  cbv zeta. unfold correct_ei. rewrite !nsign_sign. rnum. unfold Rdec.
  set (cs := sign (beta - einf)). set (e := if Rltb (Rabs ei) 1 then ei else _).
  assert (He : Rabs e < 1).
  { unfold e. destruct (Rltb (Rabs ei) 1) eqn:K; [now apply Rltb_true in K|].
    unfold cs. destruct (sign_cases (beta - einf)) as [[_ ->]|[[_ ->]|[_ ->]]]; unfold Rabs;
    destruct (Rcase_abs _); simpl; lra. }
  destruct (Reqb (sign e) cs) eqn:K.
  - split; [exact He|]. intros _. right. now apply Reqb_true in K.
  - apply Reqb_false in K. replace (e * - (1)) with (- e) by ring. split; [now rewrite Rabs_Ropp|].
    intros Hne. destruct (sign_cases e) as [[H1 H2]|[[H1 H2]|[H1 H2]]].
    + right. rewrite sign_opp. rewrite H2 in *. unfold cs in *.
      destruct (sign_cases (beta - einf)) as [[_ L]|[[_ L]|[L _]]]; rewrite ?L in *; lra.
    + right. rewrite sign_opp. rewrite H2 in *. unfold cs in *.
      destruct (sign_cases (beta - einf)) as [[_ L]|[[_ L]|[L _]]]; rewrite ?L in *; lra.
    + left. lra.
Qed.

(** *** C55: slipstream *)
Lemma development_bounds s R0 : 0 < s -> 0 < R0 -> 1 < development (T := R) s R0 < 2.
Proof.
  intros Hs HR. unfold development. rnum.
  assert (Hq : 0 < s * s + R0 * R0) by (apply Rplus_lt_0_compat; apply Rmult_lt_0_compat; lra).
  assert (H0 : s < sqrt (s * s + R0 * R0)).
  { rewrite <- (sqrt_square s) at 1 by lra. apply sqrt_lt_1; try lra.
    - apply Rmult_le_pos; lra.
    - assert (0 < R0 * R0) by (apply Rmult_lt_0_compat; lra). lra. }
  assert (Hd : 0 < s / sqrt (s * s + R0 * R0) < 1).
  { split.
    - apply Rdiv_lt_0_compat; lra.
    - apply (Rmult_lt_reg_r (sqrt (s * s + R0 * R0))); [lra|]. unfold Rdiv.
      rewrite Rmult_assoc, Rinv_l by lra. lra. }
  lra.
Qed.

Lemma contracted_from_tube Vinf kd l : 0 < Vinf -> 1 <= kd ->
  forall r0 rp0 v0, 0 <= rp0 <= r0 -> 0 <= v0 ->
    (forall i r, nth_error (map fst l) i = Some r -> r0 < r) ->
    (forall i j ri rj, (i < j)%nat -> nth_error (map fst l) i = Some ri -> nth_error (map fst l) j = Some rj -> ri < rj) ->
    Forall (fun q => 0 <= snd q) l ->
    tube Vinf kd r0 rp0 v0 l (contracted_from (T := R) Vinf kd r0 rp0 v0 l).
Proof.
  intros HV Hk. induction l as [|[r v] l IH]; intros r0 rp0 v0 Hr Hv Hi Ho Hp; cbn [contracted_from].
  - constructor.
  - inversion Hp as [|q l' Hv1 Hp']; subst. cbn [snd] in Hv1.
    assert (Hr1 : r0 < r) by (apply (Hi 0%nat); reflexivity).
    rnum.
    set (Kv := (2 * Vinf + (v + v0)) / (2 * Vinf + kd * (v + v0))).
    assert (Hk2 : v + v0 <= kd * (v + v0)).
    { rewrite <- (Rmult_1_l (v + v0)) at 1. apply Rmult_le_compat_r; lra. }
    assert (HD : 0 < 2 * Vinf + kd * (v + v0)) by lra.
    assert (HK : 0 < Kv <= 1).
    { unfold Kv. split.
      - apply Rdiv_lt_0_compat; lra.
      - apply (Rmult_le_reg_r (2 * Vinf + kd * (v + v0))); [lra|]. unfold Rdiv.
        rewrite Rmult_assoc, Rinv_l by lra. lra. }
    assert (Hsq : 0 < r * r - r0 * r0) by nra.
    set (X := rp0 * rp0 + (r * r - r0 * r0) * Kv).
    assert (HX : rp0 * rp0 < X <= r * r).
    { unfold X. split.
      - assert (0 < (r * r - r0 * r0) * Kv) by (apply Rmult_lt_0_compat; lra). lra.
      - assert ((r * r - r0 * r0) * Kv <= (r * r - r0 * r0) * 1) by (apply Rmult_le_compat_l; lra).
        assert (rp0 * rp0 <= r0 * r0) by (apply Rmult_le_compat; lra). lra. }
    assert (H0 : 0 <= rp0 * rp0) by (apply Rmult_le_pos; lra).
    assert (Hs2 : sqrt X * sqrt X = X) by (apply sqrt_sqrt; lra).
    pose proof (sqrt_pos X) as Hsp.
    assert (HA : rp0 < sqrt X).
    { rewrite <- (sqrt_square rp0) at 1 by lra. apply sqrt_lt_1; lra. }
    assert (HB : sqrt X <= r).
    { rewrite <- (sqrt_square r) by lra. apply sqrt_le_1; lra. }
    apply tube_cons; auto.
    + unfold mean_axial2. 
      replace (sqrt X ^ 2) with X by (transitivity (sqrt X * sqrt X); [now rewrite Hs2|ring]).
      unfold X, Kv. field. lra.
    + apply IH; auto.
      * intros i r' Hn. apply (Ho 0%nat (S i) r r'); [lia|reflexivity|exact Hn].
      * intros i j ri rj Hij Hni Hnj. apply (Ho (S i) (S j) ri rj); [lia|exact Hni|exact Hnj].
Qed.

(** *** C51 *)
Lemma propeller_axis_unit e h : vdot (propeller_axis e h) (propeller_axis e h) = 1.
Proof.
  unfold propeller_axis, vdot. cbn [vx vy vz]. rnum.
  set (a := degrees e). set (b := degrees h).
  pose proof (sin2_cos2 a) as A. pose proof (sin2_cos2 b) as B. unfold Rsqr in A, B.
  replace (cos a * cos b * (cos a * cos b) + cos a * sin b * (cos a * sin b) + - sin a * - sin a)
    with (cos a * cos a * (sin b * sin b + cos b * cos b) + sin a * sin a) by ring.
  rewrite B. lra.
Qed.

Lemma vdot_unit_bound (a b : vec3 R) : vdot a a = 1 -> vdot b b = 1 -> -1 <= vdot a b <= 1.
Proof.
  intros Ha Hb. pose proof (lagrange a b) as L. pose proof (vdot_self_nonneg (vcross a b)) as P.
  rewrite Ha, Hb in L. assert (vdot a b * vdot a b <= 1) by lra. split; nra.
Qed.
Lemma vdot_unit_eq (a b : vec3 R) : vdot a a = 1 -> vdot b b = 1 -> vdot a b = 1 -> a = b.
Proof.
  intros Ha Hb H. assert (K : vdot (vsub a b) (vsub a b) = 0).
  { rewrite vdot_sub_l, (vdot_comm a (vsub a b)), (vdot_comm b (vsub a b)), !vdot_sub_l.
    rewrite (vdot_comm b a). rewrite Ha, Hb, H. ring. }
  apply vdot_self_0 in K. destruct a as [a1 a2 a3], b as [b1 b2 b3].
  unfold vsub, vzero in K. cbn in K. injection K as K1 K2 K3. f_equal; rnum; lra.
Qed.
Lemma vopp_dot (a b : vec3 R) : vdot (vopp a) b = - vdot a b.
Proof. unfold vdot, vopp. cbn [vx vy vz]. rnum. ring. Qed.
Lemma vopp_unit (a : vec3 R) : vdot a a = 1 -> vdot (vopp a) (vopp a) = 1.
Proof. intros H. rewrite vopp_dot, (vdot_comm a), vopp_dot, H. ring. Qed.

Lemma vec_angle_ok (a b : vec3 R) : vdot a a = 1 -> vdot b b = 1 ->
  vec_angle a b = Ok (acos (vdot a b)).
Proof.
  intros Ha Hb. unfold vec_angle. rewrite (vnorm_eq a 1), (vnorm_eq b 1) by (rewrite ?Ha, ?Hb; lra).
  rnum. replace (vdot a b / (1 * 1)) with (vdot a b) by field.
  pose proof (vdot_unit_bound a b Ha Hb) as [H1 H2].
  replace (Rltb (vdot a b) (-1)) with false by (symmetry; apply Rltb_false; lra).
  replace (Rltb 1 (vdot a b)) with false by (symmetry; apply Rltb_false; lra). reflexivity.
Qed.
Lemma acos_angle (a b : vec3 R) : vdot a a = 1 -> vdot b b = 1 -> angle_between a b (acos (vdot a b)).
Proof.
  intros Ha Hb. pose proof (vdot_unit_bound a b Ha Hb) as H. split.
  - apply acos_bound.
  - apply cos_acos. exact H.
Qed.

(** the direction of the normal force *)
Lemma disk_direction (v f : vec3 R) : vdot f f = 1 ->
  vcross (vcross (vopp v) f) f = vsub v (vscale (vdot v f) f).
Proof.
  intros Hf. unfold vdot in Hf. unfold vcross, vopp, vsub, vscale, vdot. destruct v as [a b c], f as [x y z].
  cbn [vx vy vz] in *. rnum. f_equal.
  - transitivity (a * (x * x + y * y + z * z) - (a * x + b * y + c * z) * x); [ring|rewrite Hf; ring].
  - transitivity (b * (x * x + y * y + z * z) - (a * x + b * y + c * z) * y); [ring|rewrite Hf; ring].
  - transitivity (c * (x * x + y * y + z * z) - (a * x + b * y + c * z) * z); [ring|rewrite Hf; ring].
Qed.
Lemma disk_unit (v f : vec3 R) : vdot f f = 1 -> let n := vsub v (vscale (vdot v f) f) in
  n <> vzero -> along_disk v f (vdivs n (vnorm n)).
Proof.
  intros Hf n Hn. pose proof (vnorm_pos n Hn) as Hp. split; [|split].
  - apply vunit_dot. now apply vdivs_norm_unit.
  - rewrite vdivs_scale, vdot_scale_l. unfold n. rewrite vdot_sub_l, vdot_scale_l, Hf. ring.
  - exists (vnorm n). split; [exact Hp|]. rewrite vdivs_scale, vscale_scale, Rinv_r by lra.
    unfold n, vadd, vsub, vscale. destruct v as [a b c], f as [x y z]. cbn [vx vy vz]. rnum. f_equal; ring.
Qed.
