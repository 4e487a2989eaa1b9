(** Theorem-level lemmas on the wing solve: flow, wind axes, totals, moment transfer,
    deflections (C18-C21, C30, C31). *)
From Coq Require Import Reals ZArith String Bool Arith Lia Lra List.
From Verif Require Import Base Num RVec Geometry Grid LLModel Spec_Grid Spec_LL LL_state LL_R LL_solve Grid_thm LL_props LL_thm Grid_props.
Import ListNotations.
Local Open Scope R_scope.

Lemma grid_num {T} {N : num_ops T} cosine (pl : airplane T) g :
  make_grid cosine pl = Ok g -> g_num g = List.length (g_sections g).
Proof. intros H. destruct (grid_bookkeeping _ _ _ _ _ H) as (A & B & _). congruence. Qed.

(** *** Flow *)
Lemma solve_flow ls g cg stype d c s r s' : g_num g = List.length (g_sections g) -> given_aero (Some d) ->
  ll_solve ls g cg stype (Some d) c s = (Ok r, s') ->
  exists v u rho, base_flow (g_num g) d = Ok (v, u, rho) /\
    List.length v = g_num g /\ List.length rho = g_num g /\
    l_v s' = map2 (at_section (body_rates (an d)) cg) v (g_sections g) /\ l_uinf s' = u /\ l_rho s' = rho.
Proof.
  intros Hn Ha H. destruct (ll_solve_solved _ _ _ _ _ _ _ H) as (_ & s1 & s2 & gam & H1 & H2 & H3 & H4).
  pose proof (process_aero_base g cg d s Hn Ha) as P. rewrite H1 in P.
  destruct (base_flow (g_num g) d) as [[[v u] rho]|e] eqn:Eb; [|discriminate].
  destruct P as (s1' & E & Ev & Eu & Er & _ & _ & L1 & L2). inversion E; subst s1'; clear E.
  destruct (process_control_flow _ _ _ H2) as (F1 & F2 & F3 & F4).
  unfold inputs in H3.
  apply pair_equal_spec in H3; destruct H3 as [H3 _]. apply pair_equal_spec in H3; destruct H3 as [H3 _].
  apply pair_equal_spec in H3; destruct H3 as [H3 G3]. apply pair_equal_spec in H3; destruct H3 as [G1 G2].
  exists v, u, rho. refine (conj eq_refl (conj L1 (conj L2 (conj _ (conj _ _))))); congruence.
Qed.

Lemma given_of_V d V : dget (an d) "V_mag" = Some V -> given_aero (T := R) (Some d).
Proof. intros H. exists d. split; auto. left. intros E. rewrite E in H. discriminate. Qed.

(** With V_mag given the freestream direction is the one of the airflow. *)
Lemma solve_uinf ls g cg stype d c s r s' V : g_num g = List.length (g_sections g) ->
  dget (an d) "V_mag" = Some V ->
  ll_solve ls g cg stype (Some d) c s = (Ok r, s') ->
  l_uinf s' = unit_of (freestream V (entry (an d) "alpha") (entry (an d) "beta")).
Proof.
  intros Hn HV H. destruct (solve_flow _ _ _ _ _ _ _ _ _ Hn (given_of_V _ _ HV) H) as (v & u & rho & Eb & _ & _ & _ & E & _).
  rewrite E. clear E H. unfold base_flow in Eb. rewrite HV in Eb.
  destruct (als d) as [rows|].
  - unfold rbind in Eb. destruct (broadcast (g_num g) rows); [|discriminate]. congruence.
  - destruct (dget (an d) "rho"); [|discriminate]. congruence.
Qed.

Lemma airflow_unit V a b v : 0 < V -> airflow V a b v -> vdot (unit_of v) (unit_of v) = 1.
Proof.
  intros HV H. rewrite (unit_of_airflow _ _ _ _ H). destruct H as [H _].
  rewrite vdot_scale_l, vdot_scale_r, <- vnorm_sq, H. field. lra.
Qed.
Lemma airflow_not_spanwise V a b v : 0 < V -> airflow V a b v -> cos b <> 0 -> not_spanwise (unit_of v).
Proof.
  intros HV H Hb. rewrite (unit_of_airflow _ _ _ _ H). destruct H as [_ (m & Hm & ->)].
  unfold not_spanwise, vscale. cbn [vx vz]. rnum.
  assert (/ V <> 0) by (apply Rinv_neq_0_compat; lra).
  destruct (Req_dec (cos a) 0) as [Ea|Ea].
  - right. assert (sin a <> 0). { intros K. pose proof (sin2_cos2 a) as E. rewrite Ea, K in E. unfold Rsqr in E. lra. }
    repeat apply Rmult_integral_contrapositive_currified; auto. lra.
  - left. repeat apply Rmult_integral_contrapositive_currified; auto. lra.
Qed.

Lemma airflow_tan V a b v : airflow V a b v -> cos a <> 0 -> cos b <> 0 ->
  vz v / vx v = tan a /\ vy v / vx v = tan b.
Proof.
  intros [_ (m & Hm & ->)] Ha Hb. unfold vscale; cbn [vx vy vz]; rnum. unfold tan. split; field; repeat split; lra.
Qed.
Lemma airflow_zero V v : airflow V 0 0 v -> v = V3 (- V) 0 0.
Proof.
  intros [Hnm (m & Hm & Ev)]. rewrite Ev in *. rewrite cos_0, sin_0 in *.
  assert (Em : m = V).
  { rewrite vnorm_scale in Hnm. replace (vnorm (V3 (1 * 1) (1 * 0) (0 * 1))) with 1 in Hnm.
    - rewrite Rabs_left in Hnm; lra.
    - symmetry. apply vnorm_eq; [lra|]. vunf. ring. }
  subst m. vring.
Qed.

Lemma C18_lemma ls g cg stype d c s r s' V :
  g_num g = List.length (g_sections g) ->
  als d = None -> dget (an d) "V_mag" = Some V -> 0 < V ->
  let alpha := degrees (entry (an d) "alpha") in let beta := degrees (entry (an d) "beta") in
  0 < 1 - sin alpha * sin alpha * sin beta * sin beta ->
  body_rates (an d) = V3 0 0 0 ->
  ll_solve ls g cg stype (Some d) c s = (Ok r, s') ->
  exists v, airflow V alpha beta v /\ l_v s' = map (fun _ => v) (g_sections g) /\
            v = vscale V (l_uinf s') /\
            (cos alpha <> 0 -> cos beta <> 0 -> vz v / vx v = tan alpha /\ vy v / vx v = tan beta) /\
            (alpha = 0 -> beta = 0 -> v = V3 (- V) 0 0).
Proof.
  intros Hn Hals HV HV0 alpha beta Hs Hw H.
  pose proof (freestream_airflow V _ _ HV0 Hs) as Hf.
  set (v := freestream V (entry (an d) "alpha") (entry (an d) "beta")) in *.
  exists v. refine (conj Hf (conj _ (conj _ (conj _ _)))).
  - destruct (solve_flow _ _ _ _ _ _ _ _ _ Hn (given_of_V _ _ HV) H) as (v0 & u & rho & Eb & L & _ & E & _).
    rewrite E, Hw. unfold base_flow in Eb. rewrite Hals, HV in Eb. destruct (dget (an d) "rho"); [|discriminate].
    injection Eb as <- _ _. fold v. rewrite map2_repeat by auto. apply map_ext. intros. apply at_section_0.
  - rewrite (solve_uinf _ _ _ _ _ _ _ _ _ _ Hn HV H). fold v. rewrite (unit_of_airflow _ _ _ _ Hf), vscale_scale.
    replace (V * / V) with 1 by (field; lra). vring.
  - intros Ha Hb. eapply airflow_tan; eauto.
  - intros Ha Hb. apply airflow_zero. rewrite <- Ha at 1. rewrite <- Hb. exact Hf.
Qed.

(** *** C19 *)
Lemma C19_lemma ls g cg stype d c s r s' d0 c0 s0 r0 s0' :
  g_num g = List.length (g_sections g) -> given_aero (Some d) -> given_aero (Some d0) ->
  als d0 = als d ->
  (forall key, In key ["V_mag"; "rho"; "alpha"; "beta"]%string -> dget (an d0) key = dget (an d) key) ->
  body_rates (an d0) = V3 0 0 0 ->
  ll_solve ls g cg stype (Some d) c s = (Ok r, s') ->
  ll_solve ls g cg stype (Some d0) c0 s0 = (Ok r0, s0') ->
  l_uinf s' = l_uinf s0' /\
  l_v s' = map2 (fun v sec => vsub v (vcross (body_rates (an d)) (vsub (s_r sec) cg))) (l_v s0') (g_sections g).
Proof.
  intros Hn Ha Ha0 E0 Hk Hw H H0.
  destruct (solve_flow _ _ _ _ _ _ _ _ _ Hn Ha H) as (v & u & rho & Eb & L1 & _ & Ev & Eu & _).
  destruct (solve_flow _ _ _ _ _ _ _ _ _ Hn Ha0 H0) as (v' & u' & rho' & Eb' & L1' & _ & Ev' & Eu' & _).
  assert (K : base_flow (g_num g) d0 = base_flow (g_num g) d).
  { unfold base_flow, entry. rewrite E0. rewrite !Hk by (simpl; tauto). reflexivity. }
  rewrite K, Eb in Eb'. injection Eb' as <- <- <-.
  split; [congruence|]. rewrite Ev, Ev', Hw. f_equal.
  symmetry. apply map2_ext_const; [congruence|]. intros; apply at_section_0.
Qed.

Lemma base_flow_same n d d' : als d' = als d ->
  (forall key, In key ["V_mag"; "rho"; "alpha"; "beta"]%string -> dget (an d') key = dget (an d) key) ->
  base_flow n d' = base_flow n d.
Proof. intros E Hk. unfold base_flow, entry. rewrite E. rewrite !Hk by (simpl; tauto). reflexivity. Qed.

(** Only the rates that are not zero matter. *)
Lemma C19_zero_lemma ls g cg stype d d' c s :
  g_num g = List.length (g_sections g) -> given_aero (Some d) -> given_aero (Some d') ->
  als d' = als d ->
  (forall key, In key ["V_mag"; "rho"; "alpha"; "beta"]%string -> dget (an d') key = dget (an d) key) ->
  body_rates (an d') = body_rates (an d) ->
  let a := ll_solve ls g cg stype (Some d) c s in let a' := ll_solve ls g cg stype (Some d') c s in
  fst a' = fst a /\ (forall r, fst a = Ok r -> observed g (snd a') = observed g (snd a)).
Proof.
  intros Hn Ha Ha' E Hk Hw. cbv zeta.
  pose proof (process_aero_base g cg d s Hn Ha) as P.
  pose proof (process_aero_base g cg d' s Hn Ha') as P'. rewrite (base_flow_same _ _ _ E Hk), Hw in P'.
  unfold ll_solve, sbind.
  destruct (base_flow (g_num g) d) as [[[v u] rho]|e].
  2:{ rewrite P, P'. split; [reflexivity|]. intros r Hr. discriminate Hr. }
  destruct P as (s1 & -> & A1 & A2 & A3 & A4 & A5 & _). destruct P' as (s2 & -> & B1 & B2 & B3 & B4 & B5 & _).
  assert (I : inputs s1 = inputs s2) by (unfold inputs; congruence).
  assert (I2 : fst (process_control g c s1) = Ok tt /\ fst (process_control g c s2) = Ok tt /\
               inputs (snd (process_control g c s1)) = inputs (snd (process_control g c s2))).
  { clear -I. unfold inputs in I. unfold process_control. destruct (opt_truthy dtruthy c); unfold smod, sret; simpl; [|auto].
    repeat split. unfold inputs. cbn [set_control l_v l_uinf l_rho l_delta l_eff].
    apply pair_equal_spec in I. destruct I as [I _]. apply pair_equal_spec in I. destruct I as [I _].
    apply pair_equal_spec in I. destruct I as [I ->]. apply pair_equal_spec in I. destruct I as [-> ->]. reflexivity. }
  destruct I2 as (E1 & E2 & I2).
  destruct (process_control g c s1) as [o1 t1], (process_control g c s2) as [o2 t2]. cbn [fst snd] in *. subst o1 o2.
  destruct (String.eqb stype "linear"); [|split; auto; intros; discriminate].
  destruct (@linear_solve_inputs _ _ ls g cg t2 t1 (eq_sym I2)) as (K1 & K2 & _).
  split; auto. intros [] Hr. rewrite <- K1 in Hr. apply observed_outputs, K2, Hr.
Qed.

(** *** C20 *)
Lemma assemble_parts u sols f : In f (parts (assemble u sols)) ->
  wind_axes u (force_of f) = (FL f, FD f, FS f).
Proof.
  unfold assemble, parts. cbn [r_inviscid r_viscous r_total]. rewrite make_fm_add.
  intros [<-|[<-|[<-|[]]]]; match goal with |- context [make_fm u ?F ?M] =>
    destruct (make_fm_force u F M) as (E & _ & E2); rewrite E; exact E2 end.
Qed.

Lemma C20_lemma ls g cg stype a c s r s' :
  ll_solve ls g cg stype a c s = (Ok r, s') ->
  vdot (l_uinf s') (l_uinf s') = 1 -> (vx (l_uinf s') <> 0 \/ vz (l_uinf s') <> 0) ->
  exists res l sd, l_results s' = Some res /\ wind_frame (l_uinf s') l sd /\
    forall f, In f (parts res) ->
      FL f = vdot (force_of f) l /\ FD f = vdot (force_of f) (l_uinf s') /\ FS f = vdot (force_of f) sd /\
      FL f ^ 2 + FD f ^ 2 + FS f ^ 2 = FX f ^ 2 + FY f ^ 2 + FZ f ^ 2 /\
      force_of f = vadd (vadd (vscale (FL f) l) (vscale (FD f) (l_uinf s'))) (vscale (FS f) sd).
Proof.
  intros H Hu Hy. destruct (ll_solve_solved _ _ _ _ _ _ _ H) as (_ & _ & _ & gam & _ & _ & _ & Hs).
  destruct (wind_axes_frame (l_uinf s') Hu Hy) as (l & sd & W & E).
  eexists. exists l, sd. split; [exact (sv_results Hs)|]. split; auto.
  intros f Hf. apply assemble_parts in Hf. pose proof (wind_axes_norm _ _ _ _ _ Hu Hy Hf) as Hnorm.
  rewrite E in Hf. apply pair_equal_spec in Hf. destruct Hf as [Hf E3]. apply pair_equal_spec in Hf. destruct Hf as [E1 E2].
  refine (conj (eq_sym E1) (conj (eq_sym E2) (conj (eq_sym E3) (conj _ _)))).
  - transitivity (vdot (force_of f) (force_of f)).
    + rewrite <- Hnorm. ring.
    + unfold force_of, vdot. cbn [vx vy vz]. rnum. ring.
  - rewrite <- E1, <- E2, <- E3. apply frame_expand. exact W.
Qed.

(** Flows with an airspeed have such a direction. *)
Lemma C20_direction ls g cg stype d c s r s' V : g_num g = List.length (g_sections g) ->
  dget (an d) "V_mag" = Some V -> 0 < V ->
  let alpha := degrees (entry (an d) "alpha") in let beta := degrees (entry (an d) "beta") in
  cos beta <> 0 ->
  ll_solve ls g cg stype (Some d) c s = (Ok r, s') ->
  vdot (l_uinf s') (l_uinf s') = 1 /\ (vx (l_uinf s') <> 0 \/ vz (l_uinf s') <> 0).
Proof.
  intros Hn HV HV0 alpha beta Hb H. rewrite (solve_uinf _ _ _ _ _ _ _ _ _ _ Hn HV H).
  assert (Hs : sideslip_ok alpha beta).
  { unfold sideslip_ok. pose proof (sin2_cos2 alpha) as E1. pose proof (sin2_cos2 beta) as E2. unfold Rsqr in *.
    assert (0 < cos beta * cos beta) by (apply Rsqr_pos_lt in Hb; exact Hb).
    pose proof (Rle_0_sqr (cos alpha)). pose proof (Rle_0_sqr (sin beta)). unfold Rsqr in *. nra. }
  pose proof (freestream_airflow V _ _ HV0 Hs) as Hf. split.
  - exact (airflow_unit _ _ _ _ HV0 Hf).
  - exact (airflow_not_spanwise _ _ _ _ HV0 Hf Hb).
Qed.

(** *** C21 *)
Lemma dist_rows_map (secs : list (section R)) : forall (sols : list (cell_sol R)),
  List.length sols = List.length secs ->
  let rows := dist_rows secs (map (@so_alpha R) sols) (map (@so_force R) sols) (map (@so_cl R) sols)
                        (map (@so_cm R) sols) (map (@so_cd R) sols) in
  map (@d_force R) rows = map (@so_force R) sols /\ List.length rows = List.length secs.
Proof.
  induction secs as [|s secs IH]; intros [|x sols] H; try discriminate; cbv zeta; cbn [map dist_rows List.length].
  - auto.
  - destruct (IH sols) as [A B]; [simpl in H; lia|]. cbv zeta in A, B. cbn [map d_force]. rewrite A, B. auto.
Qed.

Lemma C21_lemma ls g h k r s' : exact_solver ls -> g_num g = List.length (g_sections g) ->
  call_solve ls g k (after ls g h) = (Ok r, s') ->
  exists res rows, l_results s' = Some res /\ ll_distributions g s' = Ok rows /\
    List.length rows = List.length (g_sections g) /\
    force_of (r_inviscid res) = vtotal (@d_force R) rows /\
    (forall c, In c [@FL R; @FD R; @FS R; @FX R; @FY R; @FZ R; @MX R; @MY R; @MZ R] ->
       c (r_total res) = c (r_inviscid res) + c (r_viscous res)) /\
    (FD (r_total res) <> 0 -> r_LoD res = FL (r_total res) / FD (r_total res)).
Proof.
  intros He Hn H. destruct (call_operating _ _ _ _ _ _ He Hn H) as (loads & O).
  destruct (op_solved _ _ _ _ _ _ O) as [_ _ H3 H4 H5 H6 H7 H8].
  set (sols := solve_cells _ _ _ _) in *.
  assert (Hlen : List.length sols = List.length (g_sections g)).
  { unfold sols. rewrite (op_sols _ _ _ _ _ _ O), map_length, <- (op_sec _ _ _ _ _ _ O), map_length. reflexivity. }
  destruct (dist_rows_map (g_sections g) sols Hlen) as [A B].
  eexists _, _. split; [exact H3|]. split.
  { unfold ll_distributions. rewrite H4, H5, H6, H7, H8. reflexivity. }
  split; [exact B|]. unfold assemble. cbn [r_inviscid r_viscous r_total r_LoD]. split; [|split].
  - rewrite vtotal_vsum. rewrite A. apply make_fm_force.
  - intros c Hc. repeat (destruct Hc as [<-|Hc]; [reflexivity|]). destruct Hc.
  - intros _. reflexivity.
Qed.

(** *** C30 *)
Lemma process_aero_cg (g : grid R) cg cg' a s :
  (forall d, a = Some d -> body_rates (an d) = V3 0 0 0) ->
  process_aero g cg' a s = process_aero g cg a s.
Proof.
  intros Hw. destruct a as [d|]; [|reflexivity]. specialize (Hw d eq_refl).
  unfold process_aero, opt_truthy. destruct (aero_truthy d); [|reflexivity].
  assert (E : superimpose_rotation g cg' (an d) = superimpose_rotation g cg (an d)).
  { unfold superimpose_rotation. rewrite rates_of_body, Hw.
    assert (F : (fun v sec => vsub v (vcross (V3 0 0 0) (vsub (s_r (T := R) sec) cg')))
              = (fun v sec => vsub v (vcross (V3 0 0 0) (vsub (s_r sec) cg)))).
    { apply FunctionalExtensionality.functional_extensionality. intros v.
      apply FunctionalExtensionality.functional_extensionality. intros sec. vring. }
    rewrite F. reflexivity. }
  rewrite E. reflexivity.
Qed.

Lemma solve_cells_cg (u cg d : vec3 R) cs gam : List.length gam = List.length cs ->
  Forall2 (fun x y => so_force y = so_force x /\ so_par y = so_par x /\
       so_alpha y = so_alpha x /\ so_cl y = so_cl x /\ so_cd y = so_cd x /\ so_cm y = so_cm x /\
       so_moment y = vsub (so_moment x) (vcross d (so_force x)) /\
       so_moment_par y = vsub (so_moment_par x) (vcross d (so_par x)))
    (solve_cells u cg cs gam) (solve_cells u (vadd cg d) cs gam).
Proof.
  unfold solve_cells. generalize 0%nat. generalize gam at 2 4. intros all.
  assert (G : forall all' cs gam k, List.length gam = List.length cs -> Forall2 (fun x y => so_force y = so_force x /\ so_par y = so_par x /\
       so_alpha y = so_alpha x /\ so_cl y = so_cl x /\ so_cd y = so_cd x /\ so_cm y = so_cm x /\
       so_moment y = vsub (so_moment x) (vcross d (so_force x)) /\
       so_moment_par y = vsub (so_moment_par x) (vcross d (so_par x)))
    (solve_cells_from u cg all' all k cs gam) (solve_cells_from u (vadd cg d) all' all k cs gam)).
  { clear. intros all'. induction cs as [|c cs IH]; intros [|y gam] k H; try discriminate; cbn [solve_cells_from]; constructor.
    - unfold solve_cell. cbn [so_force so_par so_alpha so_cl so_cd so_cm so_moment so_moment_par].
      refine (conj eq_refl (conj eq_refl (conj eq_refl (conj eq_refl (conj eq_refl (conj eq_refl (conj _ _))))))).
      + set (f := vscale (nmul (c_rho c) y) _). generalize (vscale (nmul (nmul (nopp (nmul (nmul (nmul (ndec 5 1) (c_rho c)) (vnorm (c_v c))) (vnorm (c_v c)))) 
             (section_cm (c_sec c) (natan2 (vdot (total_velocity u all' all k c) (s_un (c_sec c))) (vdot (total_velocity u all' all k c) (s_ua (c_sec c)))) (c_delta c))) (s_ic2 (c_sec c))) (s_us (c_sec c))).
        intros w. vring.
      + match goal with |- context [vcross _ ?p] => set (f := p) end. vring.
    - apply IH. simpl in H. lia. }
  intros k H. now apply G.
Qed.

Lemma assemble_cg (d : vec3 R) sols sols' :
  Forall2 (fun x y => so_force y = so_force x /\ so_par y = so_par x /\
       so_alpha y = so_alpha x /\ so_cl y = so_cl x /\ so_cd y = so_cd x /\ so_cm y = so_cm x /\
       so_moment y = vsub (so_moment x) (vcross d (so_force x)) /\
       so_moment_par y = vsub (so_moment_par x) (vcross d (so_par x))) sols sols' ->
  vsum (map (@so_force R) sols') = vsum (map (@so_force R) sols) /\
  vsum (map (@so_par R) sols') = vsum (map (@so_par R) sols) /\
  vsum (map (@so_moment R) sols') = vsub (vsum (map (@so_moment R) sols)) (vcross d (vsum (map (@so_force R) sols))) /\
  vsum (map (@so_moment_par R) sols') = vsub (vsum (map (@so_moment_par R) sols)) (vcross d (vsum (map (@so_par R) sols))).
Proof.
  induction 1 as [|x y l l' (E1 & E2 & _ & _ & _ & _ & E3 & E4) _ (I1 & I2 & I3 & I4)].
  - cbn [map]. rewrite !vsum_nil. repeat split; vring.
  - cbn [map]. rewrite !vsum_cons, E1, E2, E3, E4, I1, I2, I3, I4. repeat split; vring.
Qed.

Lemma transferred_make u d F M : transferred d (make_fm u F M) (make_fm u F (vsub M (vcross d F))).
Proof.
  unfold transferred. destruct (make_fm_force u F M) as (-> & -> & _).
  destruct (make_fm_force u F (vsub M (vcross d F))) as (_ & -> & _). split; [|reflexivity].
  unfold make_fm. destruct (wind_axes u F) as [[? ?] ?]. reflexivity.
Qed.

Lemma C30_lemma ls g stype cg d a c s r s' : exact_solver ls -> g_num g = List.length (g_sections g) ->
  sized g s ->
  (forall d, a = Some d -> body_rates (an d) = V3 0 0 0) ->
  ll_solve ls g cg stype a c s = (Ok r, s') ->
  exists s'', ll_solve ls g (vadd cg d) stype a c s = (Ok r, s'') /\
  exists res res', l_results s' = Some res /\ l_results s'' = Some res' /\
    transferred d (r_inviscid res) (r_inviscid res') /\ transferred d (r_viscous res) (r_viscous res') /\
    transferred d (r_total res) (r_total res') /\ r_LoD res' = r_LoD res.
Proof.
  intros He Hn Hz Hw H. 
  assert (Hz' : sized g s') by (pose proof (ll_solve_sized ls g Hn cg stype a c s Hz) as K; rewrite H in K; exact K).
  destruct (ll_solve_solved _ _ _ _ _ _ _ H) as (-> & s1 & s2 & gam & H1 & H2 & H3 & Hs).
  assert (Hg : List.length gam = List.length (cells g s')).
  { destruct (exact_answer _ _ _ _ He (sv_gamma Hs)) as [K _]. now destruct (solves_rows _ _ _ K). }
  unfold ll_solve, sbind in *. rewrite (process_aero_cg g cg (vadd cg d) a s Hw).
  rewrite H1, H2 in *. destruct (String.eqb stype "linear"); [|discriminate].
  destruct (linear_solve_solved ls g (cg) _ H) as (I1 & _).
  unfold linear_solve in *. 
  assert (Ec : cells g s2 = cells g s' /\ l_uinf s2 = l_uinf s').
  { unfold inputs in I1. apply pair_equal_spec in I1. destruct I1 as [I1 I5]. apply pair_equal_spec in I1. destruct I1 as [I1 I4].
    apply pair_equal_spec in I1. destruct I1 as [I1 I3]. apply pair_equal_spec in I1. destruct I1 as [I1 I2].
    unfold cells. rewrite I1, I2, I3, I4, I5. auto. }
  destruct Ec as [Ec Eu]. rewrite Ec, Eu in *. rewrite (sv_gamma Hs) in *.
  eexists. split; [reflexivity|]. eexists _, _. split; [exact (sv_results Hs)|]. split; [reflexivity|].
  destruct (assemble_cg d _ _ (solve_cells_cg (l_uinf s') cg d (cells g s') gam Hg)) as (A1 & A2 & A3 & A4).
  set (sols := solve_cells (l_uinf s') cg (cells g s') gam) in *.
  set (sols' := solve_cells (l_uinf s') (vadd cg d) (cells g s') gam) in *.
  unfold assemble. cbn [r_inviscid r_viscous r_total r_LoD]. rewrite !make_fm_add, A1, A2, A3, A4.
  refine (conj (transferred_make _ _ _ _) (conj (transferred_make _ _ _ _) (conj _ _))).
  - match goal with |- transferred d (make_fm ?u ?F ?M) (make_fm ?u ?F ?M') =>
      replace M' with (vsub M (vcross d F)) by vring end. apply transferred_make.
  - unfold make_fm. destruct (wind_axes _ _) as [[? ?] ?]. reflexivity.
Qed.

(** *** C31 *)
Lemma efficiency_facts x :
  (Rabs x <= 11 -> efficiency x = 1) /\
  (11 < Rabs x -> efficiency x = 109589743589744 / 100000000000000 - 871794871794872 / 100000000000000000 * Rabs x) /\
  efficiency (- x) * degrees (- x) = - (efficiency x * degrees x).
Proof.
  unfold efficiency. refine (conj _ (conj _ _)).
  - intros H. destruct (Rlt_dec 11 (Rabs x)); auto. lra.
  - intros H. destruct (Rlt_dec 11 (Rabs x)); auto. contradiction.
  - rewrite Rabs_Ropp. unfold degrees. destruct (Rlt_dec 11 (Rabs x)); lra.
Qed.
