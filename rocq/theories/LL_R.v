(** Wing solve over the reals: flow, wind axes, assembly of the results, deflection
    efficiency, moment transfer, scaling (C18-C21, C28, C30, C31). *)
From Coq Require Import Reals ZArith String Bool Arith Lia Lra List.
From Verif Require Import Base Num RVec Geometry Grid LLModel Spec_Grid Spec_LL LL_state Grid_thm.
Import ListNotations.
Local Open Scope R_scope.

(** *** Freestream *)
Lemma dgetd_entry (d : dict R) k : dgetd d k n0 = entry d k.
Proof. unfold dgetd, entry. rnum. reflexivity. Qed.
Lemma nrad_degrees x : nrad x = degrees x.
Proof. reflexivity. Qed.

Definition sideslip_ok (a b : R) : Prop := 0 < 1 - sin a * sin a * sin b * sin b.

Lemma freestream_airflow V a b : 0 < V -> sideslip_ok (degrees a) (degrees b) ->
  airflow V (degrees a) (degrees b) (freestream V a b).
Proof.
  unfold sideslip_ok. intros HV Hs. unfold freestream. change (nrad a) with (degrees a). change (nrad b) with (degrees b). rnum.
  set (al := degrees a) in *. set (be := degrees b) in *.
  set (q := 1 - sin al * sin al * sin be * sin be) in *.
  assert (Hq : 0 < sqrt q) by now apply sqrt_lt_R0.
  assert (Hqq : sqrt q * sqrt q = q) by (apply sqrt_sqrt; lra).
  split.
  - apply vnorm_eq; [lra|]. unfold vdot. cbn [vx vy vz]. rnum.
    pose proof (sin2_cos2 al) as E1. pose proof (sin2_cos2 be) as E2. unfold Rsqr in *.
    assert (Hc : cos al * cos be * (cos al * cos be) + cos al * sin be * (cos al * sin be)
                 + sin al * cos be * (sin al * cos be) = q).
    { unfold q. set (sa := sin al) in *. set (ca := cos al) in *. set (sb := sin be) in *. set (cb := cos be) in *.
      replace (sa * sa * sb * sb) with ((1 - ca * ca) * (sb * sb)) by (rewrite <- E1; ring).
      replace (sa * cb * (sa * cb)) with ((1 - ca * ca) * (cb * cb)) by (rewrite <- E1; ring).
      replace (cb * cb) with (1 - sb * sb) by lra.
      replace (ca * cb * (ca * cb)) with (ca * ca * (1 - sb * sb)) by (replace (1 - sb * sb) with (cb * cb) by lra; ring).
      ring. }
    transitivity (V * V / (sqrt q * sqrt q) * (cos al * cos be * (cos al * cos be) + cos al * sin be * (cos al * sin be)
                 + sin al * cos be * (sin al * cos be))); [field; lra|].
    rewrite Hc, Hqq. field. lra.
  - exists (V / sqrt q). split; [apply Rdiv_lt_0_compat; lra|].
    apply vec_eq; unfold vscale; cbn [vx vy vz]; rnum; ring.
Qed.

Lemma airflow_nonzero V a b v : 0 < V -> airflow V a b v -> v <> vzero.
Proof. intros HV [H _] ->. rewrite vnorm_zero in H. lra. Qed.

Lemma unit_of_airflow V a b v : airflow V a b v -> unit_of v = vscale (/ V) v.
Proof. intros [H _]. unfold unit_of. now rewrite vdivs_scale, H. Qed.

Lemma broadcast_length {A} n (rows r : list A) : broadcast n rows = Ok r -> List.length r = n.
Proof.
  unfold broadcast. destruct rows as [|x [|y l]].
  - destruct (Nat.eqb_spec (@List.length A []) n); intros H; inversion H; subst; auto.
  - intros H; inversion H. apply repeat_length.
  - destruct (Nat.eqb_spec (List.length (x :: y :: l)) n); intros H; inversion H; subst; auto.
Qed.

Lemma map2_repeat {A B C} (f : A -> B -> C) x n l : List.length l = n ->
  map2 f (repeat x n) l = map (f x) l.
Proof. intros <-. induction l; simpl; congruence. Qed.

(** Velocity at a section: freestream (or local velocity) minus w x (r - cg). *)
Definition at_section (w cg : vec3 R) (v : vec3 R) (sec : section R) : vec3 R :=
  vsub v (vcross w (vsub (s_r sec) cg)).
Lemma at_section_0 cg v sec : at_section (V3 0 0 0) cg v sec = v.
Proof. unfold at_section. vring. Qed.

Lemma no_rates_zero d : has_rates (T := R) d = false -> body_rates d = V3 0 0 0.
Proof.
  unfold has_rates, body_rates, entry, dmem.
  destruct (dget d "roll_rate"), (dget d "pitch_rate"), (dget d "yaw_rate"); simpl; intros; congruence.
Qed.
Lemma rates_of_body d : rates_of (T := R) d = body_rates d.
Proof. unfold rates_of, body_rates. now rewrite !dgetd_entry. Qed.

(** the velocities before rotation, as a function of the flow description *)
Definition base_flow (n : nat) (d : aero_state R) : res (list (vec3 R) * vec3 R * list R) :=
  match als d with
  | Some rows =>
      rlet rs := broadcast n rows in
      let v := map snd rs in
      Ok (v, match dget (an d) "V_mag" with
             | Some V => unit_of (freestream V (entry (an d) "alpha") (entry (an d) "beta"))
             | None => let m := vmean v in vdivs m (vnorm m)
             end, map fst rs)
  | None =>
      match dget (an d) "V_mag", dget (an d) "rho" with
      | Some V, Some rho =>
          let f := freestream V (entry (an d) "alpha") (entry (an d) "beta") in
          Ok (repeat f n, unit_of f, repeat rho n)
      | _, _ => Err RuntimeError
      end
  end.

Lemma map2_ext_const {A B} (f : A -> B -> A) l (l' : list B) : List.length l = List.length l' ->
  (forall x y, f x y = x) -> map2 f l l' = l.
Proof. revert l'. induction l; destruct l'; simpl; intros H E; auto; try lia. rewrite E, IHl; auto. Qed.

Lemma process_aero_base (g : grid R) cg d s : g_num g = List.length (g_sections g) ->
  given_aero (Some d) ->
  match base_flow (g_num g) d with
  | Ok (v, u, rho) => exists s', process_aero g cg (Some d) s = (Ok tt, s') /\
      l_v s' = map2 (at_section (body_rates (an d)) cg) v (g_sections g) /\
      l_uinf s' = u /\ l_rho s' = rho /\ l_delta s' = l_delta s /\ l_eff s' = l_eff s /\
      List.length v = g_num g /\ List.length rho = g_num g
  | Err e => process_aero g cg (Some d) s = (Err e, s)
  end.
Proof.
  intros Hn (d0 & E0 & Hd). inversion E0; subst d0; clear E0.
  assert (E : aero_truthy d = true).
  { unfold aero_truthy. destruct Hd as [Hd|Hd].
    - destruct (an d); simpl; congruence.
    - destruct (als d); [apply orb_true_r|congruence]. }
  assert (Hrot : forall v, List.length v = g_num g ->
     (if has_rates (an d) then map2 (fun v sec => vsub v (vcross (rates_of (an d)) (vsub (s_r sec) cg))) v (g_sections g) else v)
     = map2 (at_section (body_rates (an d)) cg) v (g_sections g)).
  { intros v Hv. destruct (has_rates (an d)) eqn:Er.
    - rewrite rates_of_body. reflexivity.
    - rewrite (no_rates_zero _ Er). symmetry. apply map2_ext_const; [congruence|]. intros; apply at_section_0. }
  unfold process_aero, base_flow, opt_truthy. rewrite E. rewrite !dgetd_entry.
  unfold slift, sbind, smod, sret, sraise, rbind.
  destruct (als d) as [rows|].
  - destruct (broadcast (g_num g) rows) as [rs|e] eqn:Eb; [|reflexivity].
    assert (Hl : List.length (map snd rs) = g_num g) by (rewrite map_length; eapply broadcast_length; eauto).
    assert (Hl' : List.length (map fst rs) = g_num g) by (rewrite map_length; eapply broadcast_length; eauto).
    specialize (Hrot _ Hl).
    destruct (dget (an d) "V_mag") as [V|]; destruct (has_rates (an d));
      (eexists; split; [reflexivity|]; cbn [l_v l_uinf l_rho l_delta l_eff set_flow set_rotation superimpose_rotation]; repeat split; auto).
  - destruct (dget (an d) "V_mag") as [V|]; [|reflexivity].
    destruct (dget (an d) "rho") as [rho|]; [|reflexivity].
    specialize (Hrot _ (repeat_length (freestream V (entry (an d) "alpha") (entry (an d) "beta")) (g_num g))).
    destruct (has_rates (an d));
      (eexists; split; [reflexivity|]; cbn [l_v l_uinf l_rho l_delta l_eff set_flow set_rotation superimpose_rotation]; repeat split; auto; apply repeat_length).
Qed.

(** *** Wind axes (C20) *)
Definition not_spanwise (u : vec3 R) : Prop := vx u <> 0 \/ vz u <> 0.

Lemma wind_axes_frame (u : vec3 R) : vdot u u = 1 -> not_spanwise u ->
  exists l s, wind_frame u l s /\ forall F, wind_axes u F = (vdot F l, vdot F u, vdot F s).
Proof.
  intros Hu Hy. set (c := vcross u vey).
  assert (Hcc : vdot c c = vx u * vx u + vz u * vz u).
  { unfold c. vunf. ring. }
  assert (Hpos : 0 < vdot c c).
  { rewrite Hcc. destruct Hy; nra. }
  assert (Hc0 : c <> vzero).
  { intros E. rewrite E in Hpos. revert Hpos. vunf. lra. }
  pose proof (vnorm_pos c Hc0) as Hn. pose proof (vnorm_sq c) as Hnn.
  set (l := vdivs c (vnorm c)).
  assert (Hll : vdot l l = 1).
  { unfold l. rewrite vdivs_scale, vdot_scale_l, vdot_scale_r, <- Hnn. field. lra. }
  assert (Hul : vdot u l = 0).
  { unfold l. rewrite vdivs_scale, vdot_scale_r. unfold c. rewrite vdot_comm, vcross_dot_l. ring. }
  set (s := vcross l u).
  assert (Hss : vdot s s = 1).
  { unfold s. rewrite lagrange, Hll, Hu, vdot_comm, Hul. ring. }
  assert (Hsn : vnorm s = 1).
  { apply vnorm_eq; lra. }
  assert (Hus : vdot u s = 0) by (unfold s; rewrite vdot_comm; apply vcross_dot_r).
  assert (Hls : vdot l s = 0) by (unfold s; rewrite vdot_comm; apply vcross_dot_l).
  exists l, s. split.
  - constructor; auto.
    + unfold l. rewrite vdivs_scale. unfold c. vunf. ring.
    + change (V3 0 1 0) with (vey : vec3 R). fold c. unfold l. rewrite vdivs_scale, vdot_scale_l.
      apply Rmult_lt_0_compat; auto. now apply Rinv_0_lt_compat.
  - intros F. unfold wind_axes. fold c. fold l. fold s. rewrite Hsn.
    replace (vdivs s 1) with s by (rewrite vdivs_scale; apply vec_eq; unfold vscale; cbn [vx vy vz]; rnum; field).
    f_equal. rewrite !vdot_sub_l, !vdot_scale_l, Hus, Hls. ring.
Qed.

Lemma frame_expand u l s F : wind_frame u l s ->
  F = vadd (vadd (vscale (vdot F l) l) (vscale (vdot F u) u)) (vscale (vdot F s) s).
Proof.
  intros W. pose proof (wf_side W) as Es. set (E := vsub F (vadd (vadd (vscale (vdot F l) l) (vscale (vdot F u) u)) (vscale (vdot F s) s))).
  assert (H1 : vdot E l = 0).
  { unfold E. rewrite vdot_sub_l, !vdot_add_l, !vdot_scale_l, (wf_ll W), (wf_ul W), (vdot_comm s l), (wf_ls W). ring. }
  assert (H2 : vdot E u = 0).
  { unfold E. rewrite vdot_sub_l, !vdot_add_l, !vdot_scale_l, (vdot_comm l u), (wf_ul W), (wf_uu W), (vdot_comm s u), (wf_us W). ring. }
  assert (H3 : vdot E s = 0).
  { unfold E. rewrite vdot_sub_l, !vdot_add_l, !vdot_scale_l, (wf_ls W), (wf_us W), (wf_ss W). ring. }
  assert (H0 : vdot E E = 0).
  { (* E is orthogonal to l and u, so parallel to s = l x u *)
    assert (K : vcross E s = vzero).
    { rewrite Es. transitivity (vsub (vscale (vdot E u) l) (vscale (vdot E l) u)); [vring|].
      rewrite H1, H2. vring. }
    pose proof (lagrange E s) as L. rewrite K, H3, (wf_ss W) in L.
    replace (vdot (vzero : vec3 R) vzero) with 0 in L by vring. lra. }
  apply vdot_self_0 in H0. unfold E in H0.
  apply vec_eq; [apply (f_equal (@vx R)) in H0|apply (f_equal (@vy R)) in H0|apply (f_equal (@vz R)) in H0];
    revert H0; generalize (vadd (vadd (vscale (vdot F l) l) (vscale (vdot F u) u)) (vscale (vdot F s) s));
    intros w; vunf; intros; lra.
Qed.

Lemma wind_axes_norm u F fl fd fs : vdot u u = 1 -> not_spanwise u ->
  wind_axes u F = (fl, fd, fs) -> fl * fl + fd * fd + fs * fs = vdot F F.
Proof.
  intros Hu Hy H. destruct (wind_axes_frame u Hu Hy) as (l & s & W & E). rewrite E in H. inversion H; subst.
  transitivity (vdot (vadd (vadd (vscale (vdot F l) l) (vscale (vdot F u) u)) (vscale (vdot F s) s)) F).
  - rewrite !vdot_add_l, !vdot_scale_l, !(vdot_comm _ F). reflexivity.
  - now rewrite <- (frame_expand _ _ _ F W).
Qed.

Lemma wind_axes_linear u F G a b :
  wind_axes u (vadd (vscale a F) (vscale b G)) =
  let '(l1, d1, s1) := wind_axes u F in let '(l2, d2, s2) := wind_axes u G in
  (a * l1 + b * l2, a * d1 + b * d2, a * s1 + b * s2).
Proof.
  unfold wind_axes. cbv zeta. generalize (vdivs (vcross u vey) (vnorm (vcross u vey))). intros l.
  generalize (vdivs (vcross l u) (vnorm (vcross l u))). intros s.
  f_equal; [f_equal|]; vring.
Qed.
Lemma wind_axes_add u F G :
  wind_axes u (vadd F G) =
  let '(l1, d1, s1) := wind_axes u F in let '(l2, d2, s2) := wind_axes u G in
  (l1 + l2, d1 + d2, s1 + s2).
Proof.
  pose proof (wind_axes_linear u F G 1 1) as H.
  replace (vadd (vscale 1 F) (vscale 1 G)) with (vadd F G) in H by vring. rewrite H.
  destruct (wind_axes u F) as [[? ?] ?], (wind_axes u G) as [[? ?] ?]. f_equal; [f_equal|]; ring.
Qed.
Lemma wind_axes_scale u F k :
  wind_axes u (vscale k F) = let '(l1, d1, s1) := wind_axes u F in (k * l1, k * d1, k * s1).
Proof.
  pose proof (wind_axes_linear u F F k 0) as H.
  replace (vadd (vscale k F) (vscale 0 F)) with (vscale k F) in H by vring. rewrite H.
  destruct (wind_axes u F) as [[? ?] ?]. f_equal; [f_equal|]; ring.
Qed.

(** *** Assembly (C21) *)
Lemma vtotal_vsum {A} (f : A -> vec3 R) l : vtotal f l = vsum (map f l).
Proof.
  unfold vtotal. apply vec_eq; cbn [vx vy vz]; rewrite total_nsum, ?vx_vsum, ?vy_vsum, ?vz_vsum, map_map; reflexivity.
Qed.
Lemma make_fm_force u F M : force_of (make_fm u F M) = F /\ moment_of (make_fm u F M) = M /\
  wind_axes u F = (FL (make_fm u F M), FD (make_fm u F M), FS (make_fm u F M)).
Proof.
  unfold make_fm, force_of, moment_of. destruct (wind_axes u F) as [[l d] s]. cbn.
  destruct F, M. auto.
Qed.
Lemma make_fm_eta u (f : fm R) : wind_axes u (force_of f) = (FL f, FD f, FS f) ->
  f = make_fm u (force_of f) (moment_of f).
Proof. intros H. unfold make_fm. rewrite H. destruct f. reflexivity. Qed.
Lemma make_fm_add u F M F' M' : add_fm (make_fm u F M) (make_fm u F' M') = make_fm u (vadd F F') (vadd M M').
Proof.
  unfold make_fm. rewrite wind_axes_add.
  destruct (wind_axes u F) as [[? ?] ?], (wind_axes u F') as [[? ?] ?]. reflexivity.
Qed.
Lemma make_fm_scale u F M k : make_fm u (vscale k F) (vscale k M) = fm_times k (make_fm u F M).
Proof.
  unfold make_fm. rewrite wind_axes_scale. destruct (wind_axes u F) as [[? ?] ?]. reflexivity.
Qed.
