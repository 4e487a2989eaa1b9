(** Geometry of the STL output over the real numbers: rotations (C58), the airfoil outline
    (C59), wing sections (C62) and blades (C63). *)
From Coq Require Import Reals ZArith String Ascii Bool Arith List Lra Lia Permutation Sorted.
From Verif Require Import Base Num RVec Geometry Grid Spec_Grid Grid_R Grid_facts Grid_thm PropModel MU Stl Spec_Stl.
Import ListNotations.
Local Open Scope R_scope.

(** *** Rotations *)
Definition rotx (p : R) (v : vec3 R) : vec3 R :=
  V3 (vx v) (cos p * vy v - sin p * vz v) (sin p * vy v + cos p * vz v).
Definition roty (t : R) (v : vec3 R) : vec3 R :=
  V3 (cos t * vx v + sin t * vz v) (vy v) (cos t * vz v - sin t * vx v).
Definition rotz (g : R) (v : vec3 R) : vec3 R :=
  V3 (cos g * vx v - sin g * vy v) (sin g * vx v + cos g * vy v) (vz v).

Ltac qunf := unfold euler2quat, body2fixed, quat_mult; rnum; cbn [qw qx qy qz vx vy vz].

Lemma half_cos t : cos t = cos (t / 2) * cos (t / 2) - sin (t / 2) * sin (t / 2).
Proof. rewrite <- cos_plus. f_equal. field. Qed.
Lemma half_sin t : sin t = 2 * sin (t / 2) * cos (t / 2).
Proof. rewrite <- sin_2a. f_equal. field. Qed.
Lemma one_half t : 1 = cos (t / 2) * cos (t / 2) + sin (t / 2) * sin (t / 2).
Proof. pose proof (sin2_cos2 (t / 2)) as H. unfold Rsqr in H. lra. Qed.
Lemma zero_half : 0 / 2 = 0.
Proof. lra. Qed.

Lemma quat_ext (a b : quat R) : qw a = qw b -> qx a = qx b -> qy a = qy b -> qz a = qz b -> a = b.
Proof. destruct a, b; simpl; intros; subst; reflexivity. Qed.

Lemma mult_compose (v : vec3 R) a b : body2fixed v (quat_mult a b) = body2fixed (body2fixed v b) a.
Proof. destruct v, a, b. apply vec_eq; qunf; ring. Qed.

Lemma euler_split p t g :
  euler2quat (T := R) p t g
  = quat_mult (euler2quat 0 0 g) (quat_mult (euler2quat 0 t 0) (euler2quat p 0 0)).
Proof.
  apply quat_ext; qunf; rewrite zero_half, cos_0, sin_0; ring.
Qed.

Lemma body_rotx p v : body2fixed v (euler2quat p 0 0) = rotx p v.
Proof.
  destruct v as [x y z]. unfold rotx. rewrite (half_cos p), (half_sin p).
  qunf. rewrite zero_half, cos_0, sin_0. pose proof (one_half p) as H.
  apply vec_eq; cbn [vx vy vz]; try ring.
  transitivity (x * (cos (p / 2) * cos (p / 2) + sin (p / 2) * sin (p / 2))); [ring|rewrite <- H; ring].
Qed.
Lemma body_roty p v : body2fixed v (euler2quat 0 p 0) = roty p v.
Proof.
  destruct v as [x y z]. unfold roty. rewrite (half_cos p), (half_sin p).
  qunf. rewrite zero_half, cos_0, sin_0. pose proof (one_half p) as H.
  apply vec_eq; cbn [vx vy vz]; try ring.
  transitivity (y * (cos (p / 2) * cos (p / 2) + sin (p / 2) * sin (p / 2))); [ring|rewrite <- H; ring].
Qed.
Lemma body_rotz p v : body2fixed v (euler2quat 0 0 p) = rotz p v.
Proof.
  destruct v as [x y z]. unfold rotz. rewrite (half_cos p), (half_sin p).
  qunf. rewrite zero_half, cos_0, sin_0. pose proof (one_half p) as H.
  apply vec_eq; cbn [vx vy vz]; try ring.
  transitivity (z * (cos (p / 2) * cos (p / 2) + sin (p / 2) * sin (p / 2))); [ring|rewrite <- H; ring].
Qed.

Theorem body_euler p t g v : body2fixed v (euler2quat p t g) = rotz g (roty t (rotx p v)).
Proof. rewrite euler_split, !mult_compose, body_rotx, body_roty, body_rotz. reflexivity. Qed.

Definition qnorm2 (e : quat R) : R := qw e * qw e + qx e * qx e + qy e * qy e + qz e * qz e.
Lemma mult_norm a b : qnorm2 (quat_mult a b) = qnorm2 a * qnorm2 b.
Proof. destruct a, b. unfold qnorm2. qunf. ring. Qed.
Lemma euler_unit p t g : qnorm2 (euler2quat p t g) = 1.
Proof.
  unfold qnorm2. qunf.
  transitivity ((cos (p / 2) * cos (p / 2) + sin (p / 2) * sin (p / 2)) *
                (cos (t / 2) * cos (t / 2) + sin (t / 2) * sin (t / 2)) *
                (cos (g / 2) * cos (g / 2) + sin (g / 2) * sin (g / 2))); [ring|].
  rewrite <- (one_half p), <- (one_half t), <- (one_half g). ring.
Qed.
Lemma body_dot (u v : vec3 R) e : vdot (body2fixed u e) (body2fixed v e) = qnorm2 e * qnorm2 e * vdot u v.
Proof. destruct u, v, e. unfold qnorm2, vdot. qunf. ring. Qed.
Lemma body_cross (u v : vec3 R) e :
  vcross (body2fixed u e) (body2fixed v e) = vscale (qnorm2 e) (body2fixed (vcross u v) e).
Proof. destruct u, v, e. apply vec_eq; unfold qnorm2, vcross, vscale; qunf; ring. Qed.
Lemma body_add (u v : vec3 R) e : body2fixed (vadd u v) e = vadd (body2fixed u e) (body2fixed v e).
Proof. destruct u, v, e. apply vec_eq; unfold vadd; qunf; ring. Qed.

(** *** Wing sections *)
Lemma blend_mix (l r : R * R) s : fst (blend l r s) = between (fst l) (fst r) s /\ snd (blend l r s) = between (snd l) (snd r) s.
Proof. unfold blend, between. rnum. split; cbn [fst snd]; ring. Qed.

(** a point of the code's outline, from the leading edge in fractions of the chord *)
Definition drawn_as (q : R * R) (c : R * R) : Prop := fst c = 1 / 4 - fst q /\ snd c = - snd q.

Lemma section_vertex side mount washout dih c (b q : R * R) :
  let '(ua, un, _) := unit_vectors side mount washout dih in
  drawn_as q b ->
  body2fixed (V3 (fst b * c) 0 (snd b * c))
    (quat_mult (euler2quat (nrad (match side with SLeft => dih | SRight => - dih end)) 0 0)
               (euler2quat 0 (nrad (mount - washout)) 0))
  = vscale c (vadd (vscale (fst q - 1 / 4) ua) (vscale (snd q) un)).
Proof.
  unfold unit_vectors. cbv zeta.
  assert (HN : forall x : R, nrad (- x) = - nrad x) by (intros; rnum; field).
  intros [H1 H2]. rewrite H1, H2, mult_compose, body_roty, body_rotx.
  change (@nsub R Rnum mount washout) with (mount - washout).
  set (t := nrad (mount - washout)). 
  destruct side; [|rewrite HN]; set (e := nrad dih).
  - unfold rotx, roty, vadd, vscale. rnum. apply vec_eq; cbn [vx vy vz]; ring.
  - unfold rotx, roty, vadd, vscale. rewrite cos_neg, sin_neg. rnum. apply vec_eq; cbn [vx vy vz]; ring.
Qed.

Lemma section_row_vertices sg L R' i (l r : list (R * R)) (ql qr : nat -> R * R) n :
  let s := set_ic2 (make_section true sg L R' i) in
  List.length l = n -> List.length r = n ->
  (forall j, (j < n)%nat -> drawn_as (ql j) (nth j l (0, 0))) ->
  (forall j, (j < n)%nat -> drawn_as (qr j) (nth j r (0, 0))) ->
  section_row (sg_side sg) l r s
  = map (fun j => wing_vertex s (mix_shape (ql j) (qr j) (s_sp s))) (seq 0 n).
Proof.
  intros s Hl Hr Ql Qr. unfold section_row.
  assert (HC : combine l r = map (fun j => (nth j l (0, 0), nth j r (0, 0))) (seq 0 n)).
  { clear - Hl Hr. subst n. revert r Hr. induction l as [|x l IH]; intros [|y r] Hr; simpl in *; try discriminate; auto.
    f_equal. rewrite <- seq_shift, map_map. simpl. apply IH. lia. }
  rewrite HC, map_map. apply map_ext_in. intros j Hj. apply in_seq in Hj. cbn [fst snd].
  assert (HB : drawn_as (mix_shape (ql j) (qr j) (s_sp s)) (blend (nth j l (0, 0)) (nth j r (0, 0)) (s_sp s))).
  { destruct (blend_mix (nth j l (0, 0)) (nth j r (0, 0)) (s_sp s)) as [B1 B2].
    destruct (Ql j) as [A1 A2]; [lia|]. destruct (Qr j) as [A3 A4]; [lia|].
    split; [rewrite B1, A1, A3 | rewrite B2, A2, A4]; unfold mix_shape, between; cbn [fst snd]; field. }
  set (q := mix_shape (ql j) (qr j) (s_sp s)) in *. set (b := blend _ _ _) in *.
  pose proof (section_vertex (sg_side sg) (s_mount s) (s_washout s) (s_dihedral s) (s_c s) b q) as HV.
  unfold wing_vertex.
  assert (HU : unit_vectors (sg_side sg) (s_mount s) (s_washout s) (s_dihedral s) = (s_ua s, s_un s, s_us s)).
  { subst s. unfold set_ic2, make_section.
    destruct (lr_of_side (sg_side sg) (sg_root_chord sg) (sg_tip_chord sg)) as [cl cr].
    destruct (lr_of_side (sg_side sg) n0 (sg_washout sg)) as [wl wr].
    destruct (unit_vectors (sg_side sg) (sg_mount sg) _ (sg_dihedral sg)) as [[ua un] us] eqn:EU.
    destruct (lr_of_side (sg_side sg) (sg_root_af sg) (sg_tip_af sg)) as [al ar].
    destruct (section_control sg _) as [[flap cmd] [[[ma me] mr] mf]]. cbn. exact EU. }
  rewrite HU in HV. specialize (HV HB).
  unfold s_twist. 
  change (V3 (fst b * s_c s)%num n0 (snd b * s_c s)%num) with (V3 (fst b * s_c s) 0 (snd b * s_c s)).
  transitivity (vadd (vscale (s_c s) (vadd (vscale (fst q - 1 / 4) (s_ua s)) (vscale (snd q) (s_un s)))) (s_r s)).
  - f_equal. exact HV.
  - generalize (s_r s). intros rr. vring.
Qed.

(** *** Blades *)
Lemma rotx_comp a b v : rotx a (rotx b v) = rotx (a + b) v.
Proof. unfold rotx. cbn [vx vy vz]. rewrite cos_plus, sin_plus. apply vec_eq; cbn [vx vy vz]; ring. Qed.

Lemma blade_point_vertex (g : pgeom R) b s w (q c : R * R) :
  drawn_as q c -> (pg_rot g = 1 \/ pg_rot g = -1) -> pg_forward g = forward_of (pg_theta g) (pg_gamma g) ->
  let p := body2fixed (V3 (- (snd c * z_cb s)) (fst c * z_cb s * pg_rot g) 0) (euler2quat 0 0 (- pg_rot g * w)) in
  vadd (body2fixed (rotx (blade_angle (pg_k g) b) (V3 (vx p) (vy p) (- z_r s)))
                   (euler2quat 0 (pg_theta g) (pg_gamma g))) (pg_pos g)
  = blade_vertex g b s w q.
Proof.
  intros [H1 H2] Hrot Hf. cbv zeta. rewrite H1, H2, body_rotz, body_euler.
  unfold blade_vertex. rewrite Hf. unfold along_blade, across_blade, prop_side, prop_down, forward_of.
  set (phi := blade_angle (pg_k g) b).
  assert (HC : cos (- pg_rot g * w) = cos w /\ sin (- pg_rot g * w) = - pg_rot g * sin w).
  { destruct Hrot as [-> | ->].
    - replace (- (1) * w) with (- w) by ring. rewrite cos_neg, sin_neg. split; ring.
    - replace (- (-1) * w) with w by ring. split; ring. }
  destruct HC as [HC HS]. unfold rotx, roty, rotz. rewrite HC, HS, cos_0, sin_0.
  assert (HR : pg_rot g * pg_rot g = 1) by (destruct Hrot as [-> | ->]; ring).
  set (k := pg_rot g) in *. clearbody k.
  unfold vadd, vsub, vscale. rnum. 
  apply vec_eq; cbn [vx vy vz].
  - match goal with |- ?l = ?r => transitivity (l + (1 - k * k) * ((1 / 4 - fst q) * z_cb s * sin w) * (cos (pg_theta g) * cos (pg_gamma g))) end.
    + rewrite HR; ring.
    + ring.
  - match goal with |- ?l = ?r => transitivity (l + (1 - k * k) * ((1 / 4 - fst q) * z_cb s * sin w) * (cos (pg_theta g) * sin (pg_gamma g))) end.
    + rewrite HR; ring.
    + ring.
  - match goal with |- ?l = ?r => transitivity (l + (1 - k * k) * ((1 / 4 - fst q) * z_cb s * sin w) * (- sin (pg_theta g))) end.
    + rewrite HR; ring.
    + ring.
Qed.

Lemma unit_rigid e : qw e * qw e + qx e * qx e + qy e * qy e + qz e * qz e = 1 ->
  forall u v : vec3 R,
    vdot (body2fixed u e) (body2fixed v e) = vdot u v /\
    vcross (body2fixed u e) (body2fixed v e) = body2fixed (vcross u v) e /\
    body2fixed (vadd u v) e = vadd (body2fixed u e) (body2fixed v e).
Proof.
  intros H u v. fold (qnorm2 e) in H. rewrite body_dot, body_cross, body_add, H. split; [ring|]. split; [|reflexivity].
  apply vec_eq; unfold vscale; rnum; cbn [vx vy vz]; ring.
Qed.
