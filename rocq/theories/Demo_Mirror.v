(** Examples for mirrored flight: the flyer solves in every moderate flow, so that its
    derivatives exist with an exact linear solver; an airplane with a fin. *)
From Coq Require Import Reals ZArith String Bool Arith Lia Lra List.
From Verif Require Import Base Num RVec Geometry Api Grid LLModel PropModel Spec_Grid Spec_Geom Spec_LL Spec_Prop MU Spec_MU
  LL_state LL_R LL_solve LL_props LL_thm Linalg Linalg2 Demo Demo_LL MU_thm MU_thm3 MU_thm4 MU_thm5 MU_thm6 MU_thm7 MU_thm8 MU_thm14 Prop_thm4 Demo_MU
  Spec_Mirror MU_mirror.
Import ListNotations.
Local Open Scope string_scope.

(** *** Derivatives return when the solves around the given state do *)
Section Runs2.
  Context {T : Type} {N : num_ops T} {S : Type}.
  Variable H : host T S.
  Notation W := (world T S).
  Variable ok : aero_state T -> Prop.                       (* the states in which values are read *)
  Variable near : string -> T -> Prop.                      (* values read *)
  Variable wide : aero_state T -> Prop.                     (* the states solved *)
  Hypothesis wide_given : forall a, wide a -> given a.
  Hypothesis ok_wide : forall a, ok a -> wide a.
  Hypothesis ok_get : forall a k, ok a -> In k ["alpha"; "beta"; "roll_rate"; "pitch_rate"; "yaw_rate"] -> near k (dgetd (an a) k n0).
  Hypothesis ok_set : forall a k x, ok a -> near k x -> ok (MkAero (dset (an a) k x) (als a)).
  Hypothesis rates_alike : forall x, near "pitch_rate" x -> near "yaw_rate" x.
  Variable r : refs T.
  Hypothesis has_refs : h_refs H = Some r.
  Variable V : T.
  Hypothesis ok_V : forall a, ok a -> dgetd (an a) "V_mag" (nint 10) = V.
  Definition reach (k : string) (d : T) : Prop :=
    forall a x, ok a -> near k x -> wide (MkAero (dset (an a) k (nsub x d)) (als a)) /\ wide (MkAero (dset (an a) k (nadd x d)) (als a)).
  Hypothesis reach_alpha : reach "alpha" (ndec 5 1).
  Hypothesis reach_beta : reach "beta" (ndec 5 1).
  Hypothesis reach_roll : reach "roll_rate" (ndiv (nmul (nmul (ndec 5 3) n2) V) (r_lat r)).
  Hypothesis reach_pitch : reach "pitch_rate" (ndiv (nmul (nmul (ndec 5 3) n2) V) (r_long r)).
  Hypothesis reach_yaw : reach "yaw_rate" (ndiv (nmul (nmul (ndec 5 3) n2) V) (r_lat r)).
  Hypothesis total : forall a (c : dict T) s, wide a -> c <> [] -> exists f s', h_solve H a (Some c) s = (Ok f, a, s').

  Definition good2 (w : W) : Prop := (exists a, w_aero w = Some a /\ ok a) /\ exists c : dict T, w_ctl w = Some c /\ c <> [].
  Definition runs2 {A} (m : st W A) : Prop := forall w, good2 w -> exists x w', m w = (Ok x, w') /\ good2 w'.
  Lemma runs2_ret {A} (x : A) : runs2 (sret x).
  Proof. intros w Hw. exists x, w. auto. Qed.
  Lemma runs2_bind {A B} (m : st W A) (f : A -> st W B) : runs2 m -> (forall x, runs2 (f x)) -> runs2 (sbind m f).
  Proof.
    intros Hm Hf w Hw. destruct (Hm w Hw) as (x & w1 & K1 & G1). destruct (Hf x w1 G1) as (y & w2 & K2 & G2).
    exists y, w2. unfold sbind. now rewrite K1.
  Qed.
  Lemma runs2_refs {A} (f : refs T -> st W A) : runs2 (f r) -> runs2 (sbind (need_refs H) f).
  Proof. intros Hf w Hw. unfold sbind, need_refs. rewrite has_refs. now apply Hf. Qed.
  Lemma runs2_get {A} k (f : T -> st W A) : In k ["alpha"; "beta"; "roll_rate"; "pitch_rate"; "yaw_rate"] ->
    (forall y, near k y -> runs2 (f y)) -> runs2 (sbind (get_aero k n0) f).
  Proof.
    intros Hk Hf w Hw. unfold sbind, get_aero. pose proof Hw as [(a & Ea & Oa) _]. rewrite Ea. apply Hf; auto.
  Qed.
  Lemma runs2_any k x : runs2 (get_aero k x).
  Proof. intros w Hw. pose proof Hw as [(a & Ea & _) _]. exists (dgetd (an a) k x), w. unfold get_aero. now rewrite Ea. Qed.
  Lemma runs2_V {A} (f : T -> st W A) : runs2 (f V) -> runs2 (sbind (get_aero "V_mag" (nint 10)) f).
  Proof.
    intros Hf w Hw. unfold sbind, get_aero. pose proof Hw as [(a & Ea & Oa) _]. rewrite Ea, (ok_V a Oa). now apply Hf.
  Qed.
  Lemma solve_wide w a (c : dict T) : w_aero w = Some a -> wide a -> w_ctl w = Some c -> c <> [] ->
    exists f w', do_solve H w = (Ok f, w') /\ w_aero w' = Some a /\ w_ctl w' = Some c.
  Proof.
    intros Ea Oa Ec Hc. unfold do_solve. rewrite (aero_given_some w a Ea (wide_given a Oa)). unfold raw_solve. rewrite Ea.
    destruct (total a c (w_model w) Oa Hc) as (f & s' & K). rewrite <- Ec in K. rewrite K. eexists f, _. split; [reflexivity|]. auto.
  Qed.
  Lemma set_eq k x (w : W) a : w_aero w = Some a ->
    exists w', set_aero k x w = (Ok tt, w') /\ w_aero w' = Some (MkAero (dset (an a) k x) (als a)) /\ w_ctl w' = w_ctl w.
  Proof. intros Ea. eexists. split; [reflexivity|]. cbn [put_aero w_aero w_ctl]. rewrite Ea. split; reflexivity. Qed.
  Lemma cset_eq k x (w : W) c : w_ctl w = Some c ->
    exists w', set_ctl k x w = (Ok tt, w') /\ w_ctl w' = Some (dset c k x) /\ w_aero w' = w_aero w.
  Proof. intros Ec. eexists. split; [reflexivity|]. cbn [put_ctl w_aero w_ctl]. rewrite Ec. split; reflexivity. Qed.
  Lemma twice (a : dict T) k x y : dset (dset a k x) k y = dset a k y.
  Proof.
    induction a as [|[k0 z] a IH]; cbn [dset]; [now rewrite String.eqb_refl|].
    destruct (String.eqb k k0) eqn:E; cbn [dset]; rewrite E; [reflexivity|now rewrite IH].
  Qed.
  Lemma runs2_around {A} k k' x0 d (f : fm T * fm T -> st W A) : reach k d -> near k x0 ->
    (forall a, ok a -> ok (MkAero (dset (an a) k k') (als a))) -> (forall q, runs2 (f q)) ->
    runs2 (sbind (around_aero H k x0 d) (fun q => sbind (set_aero k k') (fun _ => f q))).
  Proof.
    intros Hr Hn Hk Hf w [(a & Ea & Oa) (c & Ec & Hc)]. destruct (Hr a x0 Oa Hn) as [R1 R2].
    destruct (set_eq k (nsub x0 d) w a Ea) as (w1 & K1 & A1 & C1).
    destruct (solve_wide w1 _ c A1 R1 ltac:(congruence) Hc) as (b & w2 & K2 & A2 & C2).
    destruct (set_eq k (nadd x0 d) w2 _ A2) as (w3 & K3 & A3 & C3). cbn [an als] in A3. rewrite twice in A3.
    destruct (solve_wide w3 _ c A3 R2 ltac:(congruence) Hc) as (g & w4 & K4 & A4 & C4).
    destruct (set_eq k k' w4 _ A4) as (w5 & K5 & A5 & C5). cbn [an als] in A5. rewrite twice in A5.
    destruct (Hf (g, b) w5) as (y & w6 & K6 & G6). { split; [eexists; split; [exact A5|now apply Hk]|exists c; split; congruence]. }
    exists y, w6. split; [|exact G6]. unfold sbind, around_aero, sret. unfold sbind. rewrite K1, K2, K3, K4, K5. exact K6.
  Qed.
  Lemma runs2_solve : runs2 (do_solve H).
  Proof.
    intros w [(a & Ea & Oa) (c & Ec & Hc)]. destruct (solve_wide w a c Ea (ok_wide a Oa) Ec Hc) as (f & w' & K & A1 & C1).
    exists f, w'. split; [exact K|]. split; eauto.
  Qed.
  Lemma runs2_set_ctl k x : runs2 (set_ctl k x).
  Proof.
    intros w [(a & Ea & Oa) (c & Ec & Hc)]. destruct (cset_eq k x w c Ec) as (w' & K & C1 & A1). exists tt, w'. split; [exact K|].
    split; [exists a; split; congruence|]. eexists. split; [exact C1|]. apply dset_nil.
  Qed.
  Lemma runs2_get_ctl k x : runs2 (get_ctl k x).
  Proof. intros w Hw. pose proof Hw as [_ (c & Ec & _)]. exists (dgetd c k x), w. unfold get_ctl. now rewrite Ec. Qed.

  Lemma runs2_pressure {A} (f : T -> st W A) : (forall x, runs2 (f x)) -> runs2 (sbind (dynamic_pressure_area H) f).
  Proof.
    intros Hf. apply runs2_bind; auto. unfold dynamic_pressure_area. apply runs2_bind; [apply runs2_any|intros x].
    apply runs2_bind; [apply runs2_any|intros y]. apply runs2_refs, runs2_ret.
  Qed.
  Lemma runs2_stability : runs2 (stability_derivatives H).
  Proof.
    intros w Hw. unfold stability_derivatives. pose proof Hw as [(a & Ea & Oa) _].
    rewrite (aero_given_some w a Ea (wide_given a (ok_wide a Oa))). revert w Hw Ea. intros w Hw _. revert w Hw.
    change (runs2 (stability_body H)). unfold stability_body.
    apply runs2_pressure. intros DP. apply runs2_refs. cbv zeta.
    apply runs2_get; [cbn; tauto|]. intros a0 Ha0. apply runs2_around; auto. intros q.
    apply runs2_get; [cbn; tauto|]. intros b0 Hb0. apply runs2_around; auto. intros q'. apply runs2_ret.
  Qed.
  Lemma runs2_damping : runs2 (damping_derivatives H).
  Proof.
    intros w Hw. unfold damping_derivatives. pose proof Hw as [(a & Ea & Oa) _].
    rewrite (aero_given_some w a Ea (wide_given a (ok_wide a Oa))). revert w Hw Ea. intros w Hw _. revert w Hw.
    change (runs2 (damping_body H)). unfold damping_body.
    apply runs2_V. apply runs2_bind; [apply runs2_any|intros rho]. apply runs2_refs. cbv zeta.
    apply runs2_get; [cbn; tauto|]. intros p0 Hp0. apply runs2_around; auto. intros q.
    apply runs2_get; [cbn; tauto|]. intros q0 Hq0. apply runs2_around; auto. intros q'.
    apply runs2_get; [cbn; tauto|]. intros r0 Hr0. apply runs2_around; auto. intros q''. apply runs2_ret.
  Qed.
  Lemma runs2_control : runs2 (control_derivatives H).
  Proof.
    intros w Hw. unfold control_derivatives. pose proof Hw as [_ (c & Ec & Hc)].
    assert (E : ctl_given w = true) by (unfold ctl_given; rewrite Ec; destruct c; [congruence|reflexivity]). rewrite E. clear E Ec Hc c.
    revert w Hw. change (runs2 (control_body H)). unfold control_body, around_ctl.
    apply runs2_pressure. intros DP. apply runs2_refs. cbv zeta.
    repeat first [apply runs2_bind; [|intros ?] | apply runs2_ret | apply runs2_get_ctl | apply runs2_set_ctl | apply runs2_solve].
  Qed.
End Runs2.

Local Open Scope R_scope.

(** *** Two equations *)
Lemma two_equations ls (p q r s b1 b2 : R) : exact_solver ls -> p * s - q * r <> 0 ->
  exists x, ls [[p; q]; [r; s]] [b1; b2] = Some x.
Proof.
  intros He Hd.
  assert (Hr : forall a b c d : R, row_times [a; b] [c; d] = a * c + b * d).
  { intros. unfold row_times. cbn [map2]. rewrite !nsum_cons, nsum_nil. ring. }
  exists [(b1 * s - b2 * q) / (p * s - q * r); (p * b2 - r * b1) / (p * s - q * r)].
  apply exact_solver_answers; auto.
  - repeat constructor.
  - split; auto. cbn [map]. rewrite !Hr. repeat apply (f_equal2 cons); auto; field; exact Hd.
  - intros y [Hl Hy]. destruct y as [|x [|y [|]]]; try discriminate. cbn [map] in Hy. rewrite !Hr in Hy.
    injection Hy as E1 E2. subst b1 b2. repeat apply (f_equal2 cons); auto; field; exact Hd.
Qed.

(** *** The flyer in a moderate flow *)
Lemma trail_z (u : vec3 R) (y : R) : y <> 0 ->
  vz (trail_term u (V3 0 y 0)) = vx u * y / (Rabs y * (Rabs y - vy u * y)).
Proof.
  intros Hy. unfold trail_term. cbv zeta.
  assert (E : vnorm (V3 0 y 0 : vec3 R) = Rabs y).
  { apply vnorm_eq; [apply Rabs_pos|]. vunf. rewrite <- Rabs_mult, Rabs_pos_eq by nra. ring. }
  rewrite E. unfold vdivs. cbn [vz]. vunf. rnum. f_equal; [ring|]. f_equal. f_equal. ring.
Qed.
Lemma induced_z u same n1 n2 (yi yj : R) :
  yi + 2 - yj <> 0 -> yi + 2 - (yj + 4) <> 0 ->
  vdot (V3 0 0 (-1)) (induced u same (flyer_section n1 yi) (flyer_section n2 yj))
  = - (1 / (4 * PI) * (vz (trail_term u (V3 0 (yi + 2 - (yj + 4)) 0)) - vz (trail_term u (V3 0 (yi + 2 - yj) 0)))).
Proof.
  intros H1 H2. unfold induced. cbv zeta. cbn [flyer_section s_r s_r1 s_r2].
  replace (vsub (V3 0 (yi + 2) 0) (V3 0 yj 0)) with (V3 0 (yi + 2 - yj) 0 : vec3 R) by (apply vec_eq; vunf; ring).
  replace (vsub (V3 0 (yi + 2) 0) (V3 0 (yj + 4) 0)) with (V3 0 (yi + 2 - (yj + 4)) 0 : vec3 R) by (apply vec_eq; vunf; ring).
  rewrite bound_flyer. rnum. set (t1 := trail_term u _). set (t2 := trail_term u _).
  unfold vdot, vscale, vsub, vadd, vzero. cbn [vx vy vz]. rnum. ring.
Qed.

Lemma flyer_regular ls (u v1 v2 : vec3 R) rho d1 d2 e1 e2 :
  exact_solver ls -> vx u < 0 -> vy u * vy u < 1 -> 0 < vnorm v1 -> 0 < vnorm v2 ->
  let cs := [MkCell sec_l v1 rho d1 e1; MkCell sec_r v2 rho d2 e2] in
  exists x, ls (a_matrix u cs) (map b_entry cs) = Some x.
Proof.
  intros He Ha Hb Hv1 Hv2. cbv zeta. unfold a_matrix, mapi. cbn [mapi_from map Nat.eqb].
  unfold a_entry. cbv zeta. cbn [c_v c_sec]. pose proof PI_RGT_0 as HP.
  change (s_un sec_l) with (V3 0 0 (-1)). change (s_un sec_r) with (V3 0 0 (-1)).
  unfold sec_l, sec_r. rewrite !induced_z by lra. rewrite !trail_z by lra.
  change (s_dS (flyer_section "left_main" (-4))) with 4. change (s_dS (flyer_section "right_main" 0)) with 4.
  change (tm (s_cla (flyer_section "left_main" (-4)))) with 6. change (tm (s_cla (flyer_section "right_main" 0))) with 6.
  set (n1 := vnorm (vcross v1 _)). set (n2' := vnorm (vcross v2 _)).
  assert (P1 : 0 <= n1) by apply vnorm_nonneg. assert (P2 : 0 <= n2') by apply vnorm_nonneg.
  apply two_equations; [exact He|].
  set (a := vx u) in *. set (b := vy u) in *. set (m1 := vnorm v1) in *. set (m2 := vnorm v2) in *.
  clearbody a b m1 m2 n1 n2'.
  assert (B1 : -1 < b) by nra. assert (B2 : b < 1) by nra.
  replace (-4 + 2 - (-4 + 4)) with (-2) by ring. replace (-4 + 2 - -4) with 2 by ring.
  replace (-4 + 2 - (0 + 4)) with (-6) by ring. replace (-4 + 2 - 0) with (-2) by ring.
  replace (0 + 2 - (-4 + 4)) with 2 by ring. replace (0 + 2 - -4) with 6 by ring.
  replace (0 + 2 - (0 + 4)) with (-2) by ring. replace (0 + 2 - 0) with 2 by ring.
  replace (Rabs (-2)) with 2 by (rewrite Rabs_left; lra). replace (Rabs 2) with 2 by (rewrite Rabs_right; lra).
  replace (Rabs (-6)) with 6 by (rewrite Rabs_left; lra). replace (Rabs 6) with 6 by (rewrite Rabs_right; lra).
  rnum.
  set (w := 1 - b * b). assert (W0 : 0 < w <= 1) by (unfold w; nra).
  set (K1 := 6 * m1 * - a / PI). set (K2 := 6 * m2 * - a / PI).
  assert (0 < K1) by (unfold K1; apply Rdiv_lt_0_compat; nra). assert (0 < K2) by (unfold K2; apply Rdiv_lt_0_compat; nra).
  match goal with |- ?p * ?s - ?q * ?r <> 0 =>
    assert (Ep : p = K1 / w + 2 * n1); [|assert (Es : s = K2 / w + 2 * n2');
      [|assert (Eq : q = - (K1 / (3 * (1 + b)))); [|assert (Er : r = - (K2 / (3 * (1 - b))))]]] end.
  1-4: unfold K1, K2, w; field; repeat split; nra.
  rewrite Ep, Es, Eq, Er.
  assert (E : - (K1 / (3 * (1 + b))) * - (K2 / (3 * (1 - b))) = K1 * K2 / (9 * w)) by (unfold w; field; repeat split; nra).
  rewrite E. clear Ep Es Eq Er E.
  assert (0 < K1 / w) by (apply Rdiv_lt_0_compat; lra). assert (0 < K2 / w) by (apply Rdiv_lt_0_compat; lra).
  assert (D : 0 < K1 / w * (K2 / w) - K1 * K2 / (9 * w)).
  { replace (K1 / w * (K2 / w) - K1 * K2 / (9 * w)) with (K1 * K2 * (9 - w) / (9 * (w * w))) by (field; lra).
    apply Rdiv_lt_0_compat; [apply Rmult_lt_0_compat; nra|nra]. }
  assert (0 <= K1 / w * (2 * n2') + 2 * n1 * (K2 / w) + 2 * n1 * (2 * n2')).
  { assert (0 <= K1 / w * (2 * n2')) by (apply Rmult_le_pos; lra). assert (0 <= 2 * n1 * (K2 / w)) by (apply Rmult_le_pos; lra).
    assert (0 <= 2 * n1 * (2 * n2')) by (apply Rmult_le_pos; lra). lra. }
  nra.
Qed.

Lemma Rabs_le_both x a : Rabs x <= a -> - a <= x <= a.
Proof. unfold Rabs. destruct (Rcase_abs x); lra. Qed.
Definition moderate (a : aero_state R) : Prop :=
  als a = None /\ dget (an a) "V_mag" = Some 10 /\ dget (an a) "rho" = Some 1 /\
  Rabs (entry (an a) "alpha") < 60 /\ Rabs (entry (an a) "beta") < 60 /\ Rabs (entry (an a) "yaw_rate") <= 1.

Lemma cos_sixty x : Rabs x < 60 -> 1 / 2 < cos (degrees x).
Proof.
  intros Hx. apply Rabs_def2 in Hx. pose proof PI_RGT_0. rewrite <- cos_PI3. unfold degrees.
  destruct (Rle_dec 0 x).
  - apply cos_decreasing_1; nra.
  - rewrite <- (cos_neg (x * PI / 180)). apply cos_decreasing_1; nra.
Qed.
Lemma moderate_stream al be : Rabs al < 60 -> Rabs be < 60 ->
  let f := freestream 10 al be in vnorm f = 10 /\ vx f < - 5 / 2.
Proof.
  intros H1 H2. cbv zeta. pose proof (cos_sixty al H1) as C1. pose proof (cos_sixty be H2) as C2.
  assert (Hs : sideslip_ok (degrees al) (degrees be)) by (apply not_both_right; left; lra).
  split; [apply (freestream_airflow 10 al be ltac:(lra) Hs)|].
  unfold freestream. change (nrad al) with (degrees al). change (nrad be) with (degrees be). cbn [vx]. rnum.
  set (ca := cos (degrees al)) in *. set (cb := cos (degrees be)) in *. set (q := sqrt _).
  assert (S1 : sin (degrees al) * sin (degrees al) = 1 - ca * ca) by (pose proof (sin2_cos2 (degrees al)) as E; unfold Rsqr in E; unfold ca; lra).
  assert (S2 : sin (degrees be) * sin (degrees be) = 1 - cb * cb) by (pose proof (sin2_cos2 (degrees be)) as E; unfold Rsqr in E; unfold cb; lra).
  pose proof (COS_bound (degrees al)) as [_ B1]. pose proof (COS_bound (degrees be)) as [_ B2]. fold ca in B1. fold cb in B2.
  assert (Eq : q = sqrt (1 - (1 - ca * ca) * (1 - cb * cb))).
  { unfold q. f_equal. rewrite <- S1, <- S2. ring. }
  assert (Q1 : 0 < q) by (rewrite Eq; apply sqrt_lt_R0; nra).
  assert (Q2 : q <= sqrt 1) by (rewrite Eq; apply sqrt_le_1_alt; nra). rewrite sqrt_1 in Q2.
  assert (/ 1 <= / q) by (apply Rinv_le_contravar; lra). rewrite Rinv_1 in *.
  unfold Rdiv. assert (1 / 4 < ca * cb) by nra. nra.
Qed.

Lemma moderate_given a : moderate a -> given a.
Proof. intros (_ & K & _). left. intros Q. now rewrite Q in K. Qed.
Lemma flyer_total a (c : dict R) s : moderate a -> c <> [] ->
  exists f s', h_solve (host_of gauss_env flyer_machup None) a (Some c) s = (Ok f, a, s').
Proof.
  intros Ha Hc. pose proof (moderate_given a Ha) as G. destruct Ha as (A1 & A2 & A3 & A4 & A5 & A6).
  cbn [host_of h_solve]. unfold solve_parts. cbn [flyer_machup mm_props mm_grid mm_cg gauss_env me_lsolve].
  assert (Hg : given_aero (Some a)) by (exists a; split; auto).
  pose proof (process_aero_base flyer_grid vzero a (m_ll s) eq_refl Hg) as P.
  unfold base_flow in P. rewrite A1, A2, A3 in P.
  destruct (moderate_stream _ _ A4 A5) as [F1 F2]. cbv zeta in F1, F2.
  set (f := freestream 10 _ _) in *. change (g_num flyer_grid) with 2%nat in P. cbn [repeat map2 g_sections flyer_grid] in P.
  destruct P as (s1 & H1 & Ev & Eu & Er & _).
  destruct (process_control_ok flyer_grid (Some c) s1) as (s2 & H2).
  destruct (process_control_flow _ _ _ H2) as (D1 & D2 & D3 & D4).
  assert (D : exists d1 d2 e1 e2, l_delta s2 = [d1; d2] /\ l_eff s2 = [e1; e2]).
  { destruct c as [|e c]; [congruence|]. cbv zeta in D4. apply pair_equal_spec in D4. destruct D4 as [-> ->]. cbn [g_sections flyer_grid map]. eauto 10. }
  destruct D as (d1 & d2 & e1 & e2 & Ed2 & Ee2).
  unfold ll_solve, sbind. rewrite H1, H2. change (String.eqb "linear" "linear") with true. cbv iota. unfold linear_solve.
  assert (Ec : exists v1 v2, cells flyer_grid s2 = [MkCell sec_l v1 1 d1 e1; MkCell sec_r v2 1 d2 e2] /\ 0 < vnorm v1 /\ 0 < vnorm v2).
  { eexists _, _. unfold cells. rewrite D1, D3, Ev, Er, Ed2, Ee2. split; [reflexivity|].
    apply Rabs_le_both in A6. unfold body_rates.
    split; apply vnorm_pos; intros K; apply (f_equal (@vx R)) in K; revert K; unfold at_section; vunf;
      cbn [sec_l sec_r flyer_section s_r vx vy vz]; lra. }
  destruct Ec as (v1 & v2 & Ec & V1 & V2).
  assert (Uf : l_uinf s2 = vdivs f 10) by (rewrite D2, Eu; unfold unit_of; now rewrite F1).
  assert (N1 : vx f * vx f + vy f * vy f + vz f * vz f = 100).
  { pose proof (vnorm_sq f) as E. rewrite F1 in E. unfold vdot in E. revert E. rnum. lra. }
  destruct (flyer_regular gauss_solver (l_uinf s2) v1 v2 1 d1 d2 e1 e2 gauss_exact) as [x Hx]; auto.
  { rewrite Uf. cbn [vdivs vx]. rnum. lra. }
  { rewrite Uf. cbn [vdivs vy]. rnum. unfold Rdiv. pose proof (Rle_0_sqr (vz f)) as Z. unfold Rsqr in Z. nra. }
  cbv zeta in Hx. rewrite Ec, Hx. cbn [read_ref l_results rbind snd]. eexists _, _. reflexivity.
Qed.

(** *** Derivatives of the flyer, by exact linear algebra *)
Definition calm (a : aero_state R) : Prop :=
  als a = None /\ dget (an a) "V_mag" = Some 10 /\ dget (an a) "rho" = Some 1 /\
  forall k, In k ["alpha"; "beta"; "roll_rate"; "pitch_rate"; "yaw_rate"] -> Rabs (entry (an a) k) <= 1 / 2.
Definition calm_value (k : string) (x : R) : Prop :=
  In k ["alpha"; "beta"; "roll_rate"; "pitch_rate"; "yaw_rate"] /\ Rabs x <= 1 / 2.

Lemma calm_moderate a : calm a -> moderate a.
Proof.
  intros (A1 & A2 & A3 & A4). repeat (split; [assumption|]). repeat split.
  - pose proof (A4 "alpha" ltac:(cbn; tauto)). lra.
  - pose proof (A4 "beta" ltac:(cbn; tauto)). lra.
  - pose proof (A4 "yaw_rate" ltac:(cbn; tauto)). lra.
Qed.
Lemma calm_set a k x : calm a -> calm_value k x -> calm (MkAero (dset (an a) k x) (als a)).
Proof.
  intros (A1 & A2 & A3 & A4) [Hk Hx]. split; [exact A1|]. cbn [an].
  assert (k <> "V_mag" /\ k <> "rho") as [K1 K2].
  { cbn [In] in Hk. split; intros ->; repeat (destruct Hk as [Hk|Hk]; [discriminate|]); contradiction. }
  rewrite !dget_dset_other by auto. repeat (split; [assumption|]). intros k' Hk'. rewrite entry_dset.
  destruct (String.eqb k' k); [exact Hx|now apply A4].
Qed.
Lemma calm_reach k d : In k ["alpha"; "beta"; "roll_rate"; "pitch_rate"; "yaw_rate"] -> Rabs d <= 1 / 2 ->
  reach calm calm_value moderate k d.
Proof.
  intros Hk Hd a x Ha [_ Hx]. pose proof (calm_moderate _ Ha) as (M1 & M2 & M3 & M4 & M5 & M6).
  assert (Hm : forall y, Rabs y <= 1 -> moderate (MkAero (dset (an a) k y) (als a))).
  { intros y Hy. assert (k <> "V_mag" /\ k <> "rho") as [K1 K2].
    { cbn [In] in Hk. split; intros ->; repeat (destruct Hk as [Hk|Hk]; [discriminate|]); contradiction. }
    split; [exact M1|]. cbn [an]. rewrite !dget_dset_other by auto. repeat (split; [assumption|]).
    rewrite !entry_dset. repeat split;
      (match goal with |- context [String.eqb ?u k] => destruct (String.eqb u k) end; [lra|assumption]). }
  apply Rabs_le_both in Hx. apply Rabs_le_both in Hd.
  split; apply Hm, Rabs_le; rnum; lra.
Qed.

Lemma flyer_derivatives f w a c : w_aero w = Some a -> calm a -> w_ctl w = Some c -> c <> [] ->
  exists d w', derivatives (host_of gauss_env flyer_machup None) f w = (Ok (Answer d), w').
Proof.
  intros Ea Ha Ec Hc. set (H := host_of gauss_env flyer_machup None).
  set (r := MkRefs 8 8 1 : refs R).
  assert (Er : h_refs H = Some r) by reflexivity.
  assert (G1 : forall a, moderate a -> given a) by apply moderate_given.
  assert (G2 : forall a k, calm a -> In k ["alpha"; "beta"; "roll_rate"; "pitch_rate"; "yaw_rate"] -> calm_value k (dgetd (an a) k n0)).
  { intros a0 k (_ & _ & _ & K) Hk. split; [exact Hk|]. rewrite dgetd_entry. now apply K. }
  assert (G3 : forall x, calm_value "pitch_rate" x -> calm_value "yaw_rate" x).
  { intros x [_ K]. split; [cbn; tauto|exact K]. }
  assert (G4 : forall a, calm a -> dgetd (an a) "V_mag" (nint 10) = 10).
  { intros a0 (_ & K & _). unfold dgetd. now rewrite K. }
  assert (D1 : Rabs (ndec (T := R) 5 1) <= 1 / 2) by (rnum; unfold Rdec; simpl; rewrite Rabs_right; lra).
  assert (D2 : Rabs (ndiv (nmul (nmul (ndec 5 3) n2) 10) (r_lat r)) <= 1 / 2)
    by (cbn [r r_lat]; rnum; unfold Rdec; simpl; rewrite Rabs_right; lra).
  assert (D3 : Rabs (ndiv (nmul (nmul (ndec 5 3) n2) 10) (r_long r)) <= 1 / 2)
    by (cbn [r r_long]; rnum; unfold Rdec; simpl; rewrite Rabs_right; lra).
  assert (W : good2 calm w) by (split; eauto).
  destruct (runs2_stability H calm calm_value moderate G1 calm_moderate G2 calm_set r Er
    (calm_reach "alpha" _ ltac:(cbn; tauto) D1) (calm_reach "beta" _ ltac:(cbn; tauto) D1) flyer_total w W) as (d1 & w1 & K1 & W1).
  destruct (runs2_control H calm moderate G1 calm_moderate r Er flyer_total w1 W1) as (d2 & w2 & K2 & W2).
  destruct (runs2_damping H calm calm_value moderate G1 calm_moderate G2 calm_set G3 r Er 10 G4
    (calm_reach "roll_rate" _ ltac:(cbn; tauto) D2) (calm_reach "pitch_rate" _ ltac:(cbn; tauto) D3) (calm_reach "yaw_rate" _ ltac:(cbn; tauto) D2)
    flyer_total w2 W2) as (d3 & w3 & K3 & W3).
  destruct (stability_given H (host_keeps gauss_env flyer_machup None) w a d1 w1 Ea (G1 a (calm_moderate a Ha)) K1)
    as (r' & k1 & k2 & k3 & k4 & b1 & f1 & b2 & f2 & a' & _ & _ & _ & _ & _ & _ & _ & D & _).
  pose proof (D "CL" (@FL R) 1 ltac:(cbn; auto)) as L1. pose proof (D "Cm" (@MY R) (r_long r') ltac:(cbn; tauto)) as L2.
  change (String.append "CL" "_a") with "CL_a" in L1. change (String.append "Cm" "_a") with "Cm_a" in L2.
  unfold derivatives. rewrite Er. unfold sbind. rewrite K1. unfold slift, dlookup. rewrite L1, L2, K2, K3. unfold sret.
  rewrite write_run. eexists _, _. reflexivity.
Qed.

(** *** An airplane with a fin in the plane of symmetry and a dorsal fin standing on it *)
Section Finned.
  Context {T : Type} {N : num_ops T}.
  Definition plate : dict (pyval T) :=
    [("alpha_L0", VInt 0); ("CL_alpha", VInt 6); ("CL_max", VInt 1); ("Cm_L0", VInt 0); ("Cm_alpha", VInt 0);
     ("CD0", VNum (ndec 1 2)); ("CD0_L", VInt 0); ("CD0_L2", VNum (ndec 1 2))].
  Definition finned_calls : list (api_call T) :=
    demo_sym_calls ++
    [ CAddWing "fin" (None, "tip") "right"
        [("semispan", VInt 1); ("dihedral", VInt 90); ("position", VList [VInt (-5); VInt 0; VInt 0]);
         ("grid", VInt 2); ("is_main", VInt 0)];
      CAirfoil 3 "plate" "both" plate;
      CControl 3 [("percent_span", VList [VInt 0; VInt 1]); ("percent_chord", VNum (ndec 3 1)); ("mix", VDict [("rudder", VInt 1)])];
      CAddWing "top" (Some "fin", "tip") "right"
        [("semispan", VInt 1); ("dihedral", VInt 90); ("grid", VInt 1); ("is_main", VInt 0)];
      CAirfoil 4 "plate" "both" plate ].
  Definition finned : airplane T := run_calls finned_calls (new_airplane "finned" None).
  Lemma finned_built : built finned.
  Proof. apply built_calls. constructor. Qed.
  Lemma finned_all_return : all_return finned_calls (new_airplane "finned" None).
  Proof. unfold finned_calls. simpl. repeat split; eexists; reflexivity. Qed.
  Definition finned_val : airplane T := Eval cbv -[nint ndec n0 n1 vzero] in finned.
  Lemma finned_eq : finned = finned_val.
  Proof. vm_compute. reflexivity. Qed.
  Lemma finned_positioned : Forall (positioned finned_val) (wingsegments finned_val).
  Proof. apply positioned_all. vm_compute. reflexivity. Qed.
  Lemma finned_controls_val :
    demo_controls finned_val
    = [(ndec 4 1, ndec 9 1); (ndec 4 1, ndec 9 1); (n0, n1); (n0, n1);
       (nint 0, nint 1); (nint 0, nint 1); (nint 0, nint 1); (n0, n1)].
  Proof. vm_compute. reflexivity. Qed.
End Finned.

Lemma finned_grid cosine : exists g, make_grid cosine (finned (T := R)) = Ok g.
Proof.
  rewrite finned_eq. apply grid_ok; [apply finned_positioned|]. rewrite finned_controls_val.
  repeat constructor; cbn [fst snd]; rnum; unfold Rdec; simpl; lra.
Qed.

Lemma finned_symmetric : mirror_symmetric (finned (T := R)).
Proof.
  rewrite finned_eq. split.
  - assert (M : forall w, nth_error (a_store (finned_val (T := R))) 0 = Some w -> symmetric_wing finned_val w).
    { intros w E. injection E as <-. apply sym_top; [reflexivity|]. intros s [<- | [<- | []]]; (split; [reflexivity|right; split; reflexivity]). }
    assert (F : forall w, nth_error (a_store (finned_val (T := R))) 3 = Some w -> fin finned_val w).
    { intros w E. injection E as <-. apply fin_top. intros s [Q | Q]; [discriminate|]. injection Q as <-.
      split; [|right; split; reflexivity]. split; [left; reflexivity|..]; repeat split; reflexivity. }
    intros w Hw. cbn [lookup_wings finned_val a_wings map a_store nth_error flat_map app] in Hw.
    destruct Hw as [<- | [<- | [<- | [<- | [<- | []]]]]].
    + left. apply M. reflexivity.
    + left. eapply sym_child with (id := 0%nat); [reflexivity| |reflexivity|apply M; reflexivity].
      intros s [<- | [<- | []]]; (split; reflexivity).
    + left. apply sym_top; [reflexivity|]. intros s [<- | [<- | []]]; (split; [reflexivity|right; split; reflexivity]).
    + right. apply F. reflexivity.
    + right. eapply fin_child with (id := 3%nat); [|reflexivity|apply F; reflexivity].
      intros s [Q | Q]; [discriminate|]. injection Q as <-. split; [|reflexivity].
      split; [left; reflexivity|..]; repeat split; reflexivity.
  - intros s Hs. assert (Q : In (sg_span s) (map (@sg_span R) (wingsegments (finned_val (T := R))))) by (apply in_map, Hs).
    change (map (@sg_span R) (wingsegments (finned_val (T := R)))) with [4; 4; 1; 1; 1; 1; 1; 1] in Q.
    cbn [In] in Q. repeat (destruct Q as [<- | Q]; [lra|]). contradiction.
Qed.
Lemma flyer_symmetric : mirror_symmetric (flyer (T := R)).
Proof.
  split.
  - intros w Hw. left. rewrite flyer_eq in *. destruct Hw as [<- | []]. apply sym_top; [reflexivity|].
    intros s [<- | [<- | []]]; (split; [reflexivity|right; split; reflexivity]).
  - intros s Hs. rewrite flyer_segs in Hs. destruct Hs as [<- | [<- | []]]; cbn [seg_l seg_r flyer_seg sg_span]; rnum; lra.
Qed.
