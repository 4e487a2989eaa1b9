(** The closed forms used by the code are the Biot-Savart integrals (C22). *)
From Coq Require Import Reals List Lra Lia.
From Coquelicot Require Import Coquelicot.
From Verif Require Import Base Num RVec Geometry Grid LLModel Spec_Grid Spec_BS.
Local Open Scope R_scope.

Section Line.
  Variables d r0 : rv.
  Let n := vcross d r0.
  Let r (t : R) : rv := vsub r0 (vscale t d).
  Let n2 := vdot n n.
  Hypothesis Hn : 0 < n2.

  Lemma line_sq t : vdot (r t) (r t) * vdot d d = n2 + (vdot d d * t - vdot d r0) ^ 2.
  Proof. unfold n2, n, r. vunf. ring. Qed.
  Lemma line_pos t : 0 < vdot (r t) (r t).
  Proof.
    pose proof (line_sq t) as E. pose proof (vdot_self_nonneg (r t)) as P.
    destruct P as [P|P]; auto. exfalso. rewrite <- P in E.
    pose proof (pow2_ge_0 (vdot d d * t - vdot d r0)). lra.
  Qed.
  Lemma line_norm_pos t : 0 < vnorm (r t).
  Proof. unfold vnorm; rnum. apply sqrt_lt_R0, line_pos. Qed.

  Definition line_int (t : R) : R := (vdot d d * t - vdot d r0) / (n2 * vnorm (r t)).
  Let q (t : R) : R := vdot d d * t ^ 2 - 2 * vdot d r0 * t + vdot r0 r0.
  Lemma q_eq t : vdot (r t) (r t) = q t.
  Proof. unfold q, r. vunf. ring. Qed.
  Lemma norm_eq t : vnorm (r t) = sqrt (q t).
  Proof. unfold vnorm. rewrite q_eq. reflexivity. Qed.
  Lemma q_pos t : 0 < q t.
  Proof. rewrite <- q_eq. apply line_pos. Qed.

  Lemma line_derive t : is_derive line_int t (/ vnorm (r t) ^ 3).
  Proof.
    pose proof (q_pos t) as Hq. pose proof (line_sq t) as E.
    apply (is_derive_ext (fun t => (vdot d d * t - vdot d r0) / (n2 * sqrt (q t)))).
    { intros x. unfold line_int. now rewrite norm_eq. }
    rewrite norm_eq. rewrite q_eq in E.
    unfold q in *. set (A := vdot d d) in *. set (B := vdot d r0) in *. set (C := vdot r0 r0) in *.
    set (Q := A * t ^ 2 - 2 * B * t + C) in *.
    assert (Hs : 0 < sqrt Q) by now apply sqrt_lt_R0.
    assert (Hss : sqrt Q * sqrt Q = Q) by (apply sqrt_sqrt; lra).
    auto_derive.
    - replace (A * (t * (t * 1)) + - (2 * B * t) + C) with Q by (unfold Q; simpl; ring).
      repeat split; auto. apply Rgt_not_eq. apply Rmult_lt_0_compat; auto.
    - replace (A * (t * (t * 1)) + - (2 * B * t) + C) with Q by (unfold Q; simpl; ring).
      transitivity ((A * (sqrt Q * sqrt Q) - (A * t - B) ^ 2) / (n2 * (sqrt Q * sqrt Q * sqrt Q))).
      + field. split; lra.
      + replace (A * (sqrt Q * sqrt Q) - (A * t - B) ^ 2) with n2 by (rewrite Hss; lra).
        field. split; lra.
  Qed.
  Lemma line_cont t : continuous (fun t => / vnorm (r t) ^ 3) t.
  Proof.
    apply (continuous_ext (fun t => / (sqrt (q t)) ^ 3)).
    { intros x. now rewrite norm_eq. }
    pose proof (q_pos t) as Hq. unfold q in *.
    assert (Hs : 0 < sqrt (vdot d d * t ^ 2 - 2 * vdot d r0 * t + vdot r0 r0)) by now apply sqrt_lt_R0.
    apply (ex_derive_continuous (V := R_NormedModule)).
    set (Q := vdot d d * t ^ 2 - 2 * vdot d r0 * t + vdot r0 r0) in *.
    auto_derive.
    repeat split; auto. apply Rgt_not_eq. change (0 < sqrt Q ^ 3). now apply pow_lt.
  Qed.
  Lemma line_RInt a b : is_RInt (fun t => / vnorm (r t) ^ 3) a b (line_int b - line_int a).
  Proof.
    apply (is_RInt_derive (V := R_CompleteNormedModule)).
    - intros x _. apply line_derive.
    - intros x _. apply line_cont.
  Qed.

  (** limit at infinity, for a unit direction *)
  Lemma line_limit : vdot d d = 1 -> filterlim line_int (Rbar_locally p_infty) (locally (/ n2)).
  Proof.
    intros Hd P [eps He].
    exists (Rmax (vdot d r0 + 1) (vdot d r0 + (n2 + 1) / (eps * n2))).
    intros t Ht. apply He.
    set (B := vdot d r0) in *.
    assert (T1 : B + 1 < t) by (eapply Rle_lt_trans; [apply Rmax_l|exact Ht]).
    assert (T2 : B + (n2 + 1) / (eps * n2) < t) by (eapply Rle_lt_trans; [apply Rmax_r|exact Ht]).
    set (x := t - B) in *.
    assert (X1 : 1 < x) by (unfold x; lra).
    assert (X2 : (n2 + 1) / (eps * n2) < x) by (unfold x; lra).
    assert (Hq : vdot (r t) (r t) = x * x + n2).
    { pose proof (line_sq t) as E. rewrite Hd in E. fold B in E. unfold x. lra. }
    assert (Hs0 : 0 <= vnorm (r t)) by apply vnorm_nonneg.
    pose proof (vnorm_sq (r t)) as Hs. rewrite Hq in Hs.
    set (s := vnorm (r t)) in *.
    assert (Hsx : x < s) by nra.
    assert (Hd' : line_int t - / n2 = - ((s - x) / (n2 * s))).
    { unfold line_int. rewrite Hd. fold B. fold s. unfold x. field. split; lra. }
    change (Rabs (line_int t - / n2) < eps). rewrite Hd', Rabs_Ropp, Rabs_pos_eq.
    2:{ apply Rlt_le, Rdiv_lt_0_compat; [lra|]. apply Rmult_lt_0_compat; lra. }
    assert (Hdiff : (s - x) * x <= n2 / 1).
    { assert ((s - x) * (s + x) = n2) by (replace n2 with (s * s - x * x) by lra; ring). nra. }
    destruct eps as [e He0]; simpl in *.
    apply Rlt_le_trans with (e * 1); [|lra].
    apply Rmult_lt_reg_r with (n2 * s * x). { repeat apply Rmult_lt_0_compat; lra. }
    replace ((s - x) / (n2 * s) * (n2 * s * x)) with ((s - x) * x) by (field; split; lra).
    eapply Rle_lt_trans; [exact Hdiff|].
    assert (X3 : n2 + 1 < x * (e * n2)).
    { apply Rmult_lt_reg_r with (/ (e * n2)). { apply Rinv_0_lt_compat, Rmult_lt_0_compat; lra. }
      replace (x * (e * n2) * / (e * n2)) with x by (field; split; lra). exact X2. }
    unfold Rdiv. rewrite Rinv_1. 
    assert (0 < e * n2) by (apply Rmult_lt_0_compat; lra).
    assert (x * (e * n2) * 1 < x * (e * n2) * s).
    { apply Rmult_lt_compat_l; [apply Rmult_lt_0_compat; lra|lra]. }
    lra.
  Qed.
  Lemma line_RInt_gen : vdot d d = 1 ->
    is_RInt_gen (V := R_NormedModule) (fun t => / vnorm (r t) ^ 3) (at_point 0) (Rbar_locally p_infty)
                (/ n2 - line_int 0).
  Proof.
    intros Hd P HP.
    assert (L : filterlim (fun t => line_int t - line_int 0) (Rbar_locally p_infty) (locally (/ n2 - line_int 0))).
    { apply (filterlim_comp _ _ _ line_int (fun y => y - line_int 0) _ (locally (/ n2))); [now apply line_limit|].
      apply (continuous_minus (V := R_NormedModule) (fun y => y) (fun _ => line_int 0) (/ n2)).
      - apply continuous_id.
      - apply continuous_const. }
    specialize (L P HP).
    apply Filter_prod with (Q := fun a => a = 0) (R := fun t => P (line_int t - line_int 0)).
    - reflexivity.
    - exact L.
    - intros a b -> Hb. exists (line_int b - line_int 0). split; auto. apply line_RInt.
  Qed.
End Line.

Lemma element_line p a d t : element p (vadd a (vscale t d)) d
  = vscale (/ (4 * PI * vnorm (vsub (vsub p a) (vscale t d)) ^ 3)) (vcross d (vsub p a)).
Proof.
  unfold element. replace (vsub p (vadd a (vscale t d))) with (vsub (vsub p a) (vscale t d)) by vring.
  f_equal. vring.
Qed.

Lemma vdot_self_pos (v : rv) : v <> vzero -> 0 < vdot v v.
Proof. intros H. pose proof (vnorm_pos v H). rewrite <- vnorm_sq. nra. Qed.
Lemma vzero_dec (v : rv) : v = vzero \/ v <> vzero.
Proof.
  destruct (Req_dec (vx v) 0), (Req_dec (vy v) 0), (Req_dec (vz v) 0);
    try (right; intros ->; unfold vzero in *; rnum; simpl in *; congruence).
  left. apply vec_eq; auto.
Qed.

Lemma scal_integrand (k m x : R) : / (4 * PI * m) * k = scal (k / (4 * PI)) (/ m).
Proof.
  unfold scal; simpl; unfold mult; simpl. unfold Rdiv. rewrite !Rinv_mult. ring.
Qed.

Definition line_velocity (d r0 : rv) (I : R) : rv := vscale (I / (4 * PI)) (vcross d r0).

(** Straight filament. *)
Lemma filament_zero p a b : vcross (vsub b a) (vsub p a) = vzero -> filament p a b vzero.
Proof.
  intros H.
  assert (E : forall t, element p (point_at a b t) (vsub b a) = vzero).
  { intros t. unfold point_at. rewrite element_line, H. apply vscale_0. }
  unfold filament, integral01. repeat split.
  all: apply (is_RInt_ext (fun _ => 0)); [intros; rewrite E; reflexivity|].
  all: evar_last; [apply (is_RInt_const (V := R_NormedModule))|unfold scal, zero; simpl; unfold mult; simpl; rnum; simpl; ring].
Qed.
Lemma half_line_zero p a u : vcross u (vsub p a) = vzero -> half_line p a u vzero.
Proof.
  intros H.
  assert (E : forall t, element p (vadd a (vscale t u)) u = vzero).
  { intros t. rewrite element_line, H. apply vscale_0. }
  assert (Z : forall f : R -> R, (forall t, f t = 0) ->
     is_RInt_gen (V := R_NormedModule) f (at_point 0) (Rbar_locally p_infty) 0).
  { intros f Hf P HP. apply Filter_prod with (Q := fun a => a = 0) (R := fun _ => True).
    - reflexivity.
    - exists 0. auto.
    - intros x y -> _. exists 0. split.
      + simpl. apply (is_RInt_ext (fun _ => 0)); [intros; now rewrite Hf|].
        evar_last; [apply (is_RInt_const (V := R_NormedModule))|unfold scal; simpl; unfold mult; simpl; ring].
      + destruct HP as [eps He]. apply He. apply ball_center. }
  unfold half_line, integral0oo. repeat split; apply Z; intros t; rewrite E; reflexivity.
Qed.

Lemma filament_line p a b : 0 < vdot (vcross (vsub b a) (vsub p a)) (vcross (vsub b a) (vsub p a)) ->
  filament p a b (line_velocity (vsub b a) (vsub p a)
                    (line_int (vsub b a) (vsub p a) 1 - line_int (vsub b a) (vsub p a) 0)).
Proof.
  intros H. pose proof (line_RInt _ _ H 0 1) as I.
  unfold filament, integral01, line_velocity.
  set (J := line_int _ _ 1 - line_int _ _ 0) in *.
  repeat split.
  all: eapply is_RInt_ext; [intros t _; unfold point_at; rewrite element_line; cbn [vx vy vz vscale]; rnum;
       symmetry; apply scal_integrand; exact 0|].
  all: evar_last; [apply (is_RInt_scal (V := R_NormedModule)); exact I|].
  all: unfold scal; simpl; unfold mult; simpl; unfold Rdiv; ring.
Qed.
Lemma half_line_line p a u : vdot u u = 1 -> 0 < vdot (vcross u (vsub p a)) (vcross u (vsub p a)) ->
  half_line p a u (line_velocity u (vsub p a)
                    (/ vdot (vcross u (vsub p a)) (vcross u (vsub p a)) - line_int u (vsub p a) 0)).
Proof.
  intros Hu H. pose proof (line_RInt_gen _ _ H Hu) as I.
  unfold half_line, integral0oo, line_velocity.
  set (J := / _ - line_int _ _ 0) in *.
  repeat split.
  all: eapply is_RInt_gen_ext; [apply filter_forall; intros ? t _; rewrite element_line; cbn [vx vy vz vscale]; rnum;
       symmetry; apply scal_integrand; exact 0|].
  all: evar_last; [apply (is_RInt_gen_scal (V := R_NormedModule)); exact I|].
  all: unfold scal; simpl; unfold mult; simpl; unfold Rdiv; ring.
Qed.

(** Closed forms *)
Lemma cross_sq_pos_norms (a b : rv) : 0 < vdot (vcross a b) (vcross a b) -> 0 < vnorm a /\ 0 < vnorm b.
Proof.
  intros H. split; apply vnorm_pos; intros ->; revert H; vunf; lra.
Qed.

Lemma closed_half_line u r : vdot u u = 1 -> 0 < vdot (vcross u r) (vcross u r) ->
  line_velocity u r (/ vdot (vcross u r) (vcross u r) - line_int u r 0)
  = vscale (1 / (4 * PI)) (trail_term u r).
Proof.
  intros Hu H. destruct (cross_sq_pos_norms _ _ H) as [_ Hm].
  pose proof (lagrange u r) as L. rewrite Hu, <- (vnorm_sq r) in L.
  unfold trail_term, line_velocity. rewrite vdivs_scale, vscale_scale. f_equal.
  unfold line_int. replace (vsub r (vscale 0 u)) with r by vring.
  pose proof PI_RGT_0. rnum. set (m := vnorm r) in *. set (k := vdot u r) in *. set (n2 := vdot (vcross u r) _) in *.
  assert (Hmk : 0 < (m - k) * (m + k)) by (replace ((m - k) * (m + k)) with n2 by (rewrite L; ring); auto).
  assert (m - k <> 0) by nra. assert (m + k <> 0) by nra.
  rewrite L. replace (1 * (m * m) - k * k) with ((m - k) * (m + k)) by ring.
  field. repeat split; lra.
Qed.

Lemma closed_filament r1 r2 : 0 < vdot (vcross r1 r2) (vcross r1 r2) ->
  line_velocity (vsub r1 r2) r1 (line_int (vsub r1 r2) r1 1 - line_int (vsub r1 r2) r1 0)
  = vscale (1 / (4 * PI)) (bound_term false r1 r2).
Proof.
  intros H. destruct (cross_sq_pos_norms _ _ H) as [Hm1 Hm2].
  pose proof (lagrange r1 r2) as L. rewrite <- (vnorm_sq r1), <- (vnorm_sq r2) in L.
  pose proof (vnorm_sq r1) as S1. pose proof (vnorm_sq r2) as S2.
  unfold bound_term, line_velocity. rewrite vdivs_scale, !vscale_scale.
  replace (vcross (vsub r1 r2) r1) with (vcross r1 r2) by vring. f_equal.
  unfold line_int. replace (vcross (vsub r1 r2) r1) with (vcross r1 r2) by vring.
  replace (vsub r1 (vscale 0 (vsub r1 r2))) with r1 by vring.
  replace (vsub r1 (vscale 1 (vsub r1 r2))) with r2 by vring.
  replace (vdot (vsub r1 r2) (vsub r1 r2)) with (vdot r1 r1 - 2 * vdot r1 r2 + vdot r2 r2) by vring.
  replace (vdot (vsub r1 r2) r1) with (vdot r1 r1 - vdot r1 r2) by vring.
  rewrite <- S1, <- S2. pose proof PI_RGT_0. rnum.
  set (m1 := vnorm r1) in *. set (m2 := vnorm r2) in *. set (k := vdot r1 r2) in *.
  set (n2 := vdot (vcross r1 r2) _) in *.
  assert (Hmk : 0 < (m1 * m2 - k) * (m1 * m2 + k)).
  { replace ((m1 * m2 - k) * (m1 * m2 + k)) with n2 by (rewrite L; ring); auto. }
  assert (m1 * m2 - k <> 0) by nra. assert (m1 * m2 + k <> 0) by nra.
  rewrite L. replace (m1 * m1 * (m2 * m2) - k * k) with ((m1 * m2 - k) * (m1 * m2 + k)) by ring.
  field. repeat split; lra.
Qed.

(** The code's induced velocity is the Biot-Savart integral over the horseshoe. *)
Lemma induced_horseshoe own u (si sj : section R) : vdot u u = 1 ->
  horseshoe own u (s_r si) (s_r1 sj) (s_r2 sj) (induced u own si sj).
Proof.
  intros Hu. set (p := s_r si). set (a := s_r1 sj). set (b := s_r2 sj).
  assert (HL : forall c, half_line p c u (vscale (1 / (4 * PI)) (trail_term u (vsub p c)))).
  { intros c. destruct (vzero_dec (vcross u (vsub p c))) as [E|E].
    - replace (vscale _ (trail_term u (vsub p c))) with (vzero : rv).
      + now apply half_line_zero.
      + unfold trail_term. rewrite E, vdivs_scale, !vscale_0. reflexivity.
    - rewrite <- closed_half_line; auto using vdot_self_pos. apply half_line_line; auto using vdot_self_pos. }
  exists (vscale (1 / (4 * PI)) (trail_term u (vsub p a))),
         (vscale (1 / (4 * PI)) (trail_term u (vsub p b))),
         (vscale (1 / (4 * PI)) (bound_term own (vsub p a) (vsub p b))).
  split; [apply HL|]. split; [apply HL|]. split.
  - destruct own.
    + unfold bound_term. apply vscale_0.
    + assert (Eba : vsub b a = vsub (vsub p a) (vsub p b)) by vring.
      assert (Ecr : vcross (vsub b a) (vsub p a) = vcross (vsub p a) (vsub p b)) by vring.
      destruct (vzero_dec (vcross (vsub p a) (vsub p b))) as [E|E].
      * replace (vscale _ (bound_term false _ _)) with (vzero : rv).
        -- apply filament_zero. congruence.
        -- unfold bound_term. rewrite E, vdivs_scale, !vscale_0. reflexivity.
      * rewrite <- closed_filament by auto using vdot_self_pos. rewrite <- Eba.
        apply filament_line. rewrite Ecr. auto using vdot_self_pos.
  - unfold induced. fold p a b. rnum. rewrite vscale_sub, vscale_add. vring.
Qed.

(** Off the vortex lines the code divides by non-zero numbers. *)
Lemma half_line_denominator p a u : vdot u u = 1 -> off_half_line p a u ->
  vnorm (vsub p a) * (vnorm (vsub p a) - vdot u (vsub p a)) <> 0.
Proof.
  intros Hu H E. set (r := vsub p a) in *.
  assert (Hr : r = vscale (vnorm r) u /\ 0 <= vnorm r).
  { split; [|apply vnorm_nonneg]. apply Rmult_integral in E. destruct E as [E|E].
    - rewrite (vnorm_0 _ E). rewrite vnorm_zero. vring.
    - assert (K : vdot u r = vnorm r) by lra.
      set (e := vsub r (vscale (vnorm r) u)).
      assert (Ee : vdot e e = 0).
      { unfold e. transitivity (vdot r r - 2 * vnorm r * vdot u r + vnorm r * vnorm r * vdot u u); [vring|].
        rewrite <- vnorm_sq, K, Hu. ring. }
      apply vdot_self_0 in Ee. unfold e in Ee.
      apply vec_eq; [apply (f_equal (@vx R)) in Ee|apply (f_equal (@vy R)) in Ee|apply (f_equal (@vz R)) in Ee];
        revert Ee; generalize (vnorm r); intros; vunf; lra. }
  destruct Hr as [Hr Hp]. apply (H (vnorm r) Hp). rewrite <- Hr. unfold r. vring.
Qed.
Lemma filament_denominator p a b : off_segment p a b ->
  let m1 := vnorm (vsub p a) in let m2 := vnorm (vsub p b) in
  (m1 * m2) * (m1 * m2 + vdot (vsub p a) (vsub p b)) <> 0.
Proof.
  intros H m1 m2 E. set (r1 := vsub p a) in *. set (r2 := vsub p b) in *.
  assert (P1 : m1 <> 0).
  { intros K. apply vnorm_0 in K. apply (H 0); [lra|].
    unfold point_at. transitivity (vadd a r1); [unfold r1; vring|]. rewrite K. vring. }
  assert (P2 : m2 <> 0).
  { intros K. apply vnorm_0 in K. apply (H 1); [lra|].
    unfold point_at. transitivity (vadd b r2); [unfold r2; vring|]. rewrite K. vring. }
  pose proof (vnorm_nonneg r1) as N1. pose proof (vnorm_nonneg r2) as N2. fold m1 in N1. fold m2 in N2.
  pose proof (vnorm_sq r1) as S1. pose proof (vnorm_sq r2) as S2. fold m1 in S1. fold m2 in S2.
  assert (K : vdot r1 r2 = - (m1 * m2)).
  { apply Rmult_integral in E. destruct E as [E|E]; [|lra]. apply Rmult_integral in E. tauto. }
  (* m2 r1 + m1 r2 = 0 *)
  set (e := vadd (vscale m2 r1) (vscale m1 r2)).
  assert (Ee : vdot e e = 0).
  { unfold e. transitivity (m2 * m2 * vdot r1 r1 + 2 * m1 * m2 * vdot r1 r2 + m1 * m1 * vdot r2 r2); [vring|].
    rewrite <- S1, <- S2, K. ring. }
  apply vdot_self_0 in Ee. unfold e in Ee.
  apply (H (m1 / (m1 + m2))).
  { split.
    - apply Rmult_le_pos; [lra|]. left. apply Rinv_0_lt_compat. lra.
    - apply Rmult_le_reg_r with (m1 + m2); [lra|]. unfold Rdiv. rewrite Rmult_assoc, Rinv_l by lra. lra. }
  unfold point_at, r1, r2 in *.
  assert (Hsum : m1 + m2 <> 0) by lra.
  apply vec_eq; [apply (f_equal (@vx R)) in Ee|apply (f_equal (@vy R)) in Ee|apply (f_equal (@vz R)) in Ee];
    revert Ee; clearbody m1 m2; clear -Hsum; vunf; intros Ee; apply Rmult_eq_reg_l with (m1 + m2); auto;
    field_simplify; auto; lra.
Qed.
