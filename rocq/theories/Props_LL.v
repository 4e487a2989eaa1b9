(** Properties C18-C32, C61 of the wing solve.  Vocabulary: Spec_LL.v, Spec_BS.v.
    [make_grid cosine pl = Ok g]: LLModel(plane, cosine) has been constructed, with
    sections [g_sections g].  [after ls g h]: the model after the calls [h] of its
    solve method, returning or raising.  [call_solve ls g k s = (Ok r, s')]: the call
    [k] returned and left the model in state [s'] ([l_v], [l_rho], [l_gamma]: velocity,
    density and vortex strength per section, [l_uinf]: freestream direction,
    [l_results]: the dictionary returned).  [ls] is the routine solving the linear
    system (numpy.linalg.solve); [exact_solver ls] where its answer matters. *)
From Coq Require Import Reals ZArith String Bool Arith Lia Lra List.
From Verif Require Import Base Num RVec Geometry Api Grid LLModel Spec_Grid Spec_Geom Spec_LL Spec_BS
     Grid_facts Grid_R Grid_thm LL_state LL_R LL_solve LL_props BS_thm LL_thm LL_thm2 LL_thm3 LL_scale LL_sym Linalg
     Demo Demo_LL.
Import ListNotations.
Local Open Scope R_scope.

(** A solver with the assumed behaviour exists. *)
Theorem exact_solver_exists : exists ls, exact_solver ls.
Proof. exists gauss_solver. exact gauss_exact. Qed.

(** *** C18 *)
Theorem C18_freestream :
  forall ls cosine (pl : airplane R) g h k d r s' V,
    make_grid cosine pl = Ok g -> k_aero k = Some d -> als d = None ->
    dget (an d) "V_mag" = Some V -> 0 < V ->
    let alpha := degrees (entry (an d) "alpha") in let beta := degrees (entry (an d) "beta") in
    0 < 1 - sin alpha * sin alpha * sin beta * sin beta ->
    body_rates (an d) = V3 0 0 0 ->
    call_solve ls g k (after ls g h) = (Ok r, s') ->
    exists v, airflow V alpha beta v /\
      l_v s' = map (fun _ => v) (g_sections g) /\
      v = vscale V (l_uinf s') /\
      (cos alpha <> 0 -> cos beta <> 0 -> vz v / vx v = tan alpha /\ vy v / vx v = tan beta) /\
      (alpha = 0 -> beta = 0 -> v = V3 (- V) 0 0).
Proof.
  intros ls cosine pl g h k d r s' V Hg Hd Ha HV Hp alpha beta Hab Hb H. unfold call_solve in H. rewrite Hd in H.
  eapply C18_lemma; eauto. exact (grid_num cosine pl g Hg).
Qed.
Print Assumptions C18_freestream.

(** One solved airplane meets the hypotheses of most theorems below. *)
Example flyer_call_returns V rho c h : 0 < V ->
  built (flyer (T := R)) /\ make_grid false (flyer (T := R)) = Ok flyer_grid /\ exact_solver gauss_solver /\
  exists s' res, call_solve gauss_solver flyer_grid (flyer_call V rho c) (after gauss_solver flyer_grid h) = (Ok TheResultsDict, s') /\
    l_results s' = Some res /\ vdot (l_uinf s') (l_uinf s') = 1 /\ vx (l_uinf s') <> 0 /\
    clear_of_vortices (l_uinf s') (g_sections flyer_grid) /\ FZ (r_inviscid res) = - (8 * (rho * flyer_gamma V * V)).
Proof.
  intros HV. refine (conj flyer_built (conj (flyer_grid_ok _) (conj gauss_exact _))).
  destruct (flyer_returns gauss_solver V rho c h gauss_exact HV) as (s' & res & K & E1 & _ & _ & Eu & _ & E2 & _).
  exists s', res. rewrite Eu. refine (conj K (conj E1 (conj _ (conj _ (conj flyer_clear E2))))).
  - unfold vdot. cbn [vx vy vz]. rnum. ring.
  - cbn [vx]. lra.
Qed.
Example C18_applies :
  let d := straight 10 1 in
  als d = None /\ dget (an d) "V_mag" = Some 10 /\ body_rates (an d) = V3 0 0 0 /\
  0 < 1 - sin (degrees (entry (an d) "alpha")) * sin (degrees (entry (an d) "alpha")) *
          sin (degrees (entry (an d) "beta")) * sin (degrees (entry (an d) "beta")).
Proof.
  cbv zeta. refine (conj eq_refl (conj eq_refl (conj eq_refl _))).
  change (entry (an (straight 10 1)) "alpha") with 0. unfold degrees.
  replace (0 * PI / 180) with 0 by field. rewrite sin_0. lra.
Qed.

(** *** C19 *)
Theorem C19_rotation_rates :
  forall ls cosine (pl : airplane R) g cg stype d c h r s' d0 c0 h0 r0 s0',
    make_grid cosine pl = Ok g ->
    given_aero (Some d) -> given_aero (Some d0) -> als d0 = als d ->
    (forall key, In key ["V_mag"; "rho"; "alpha"; "beta"]%string -> dget (an d0) key = dget (an d) key) ->
    body_rates (an d0) = V3 0 0 0 ->
    ll_solve ls g cg stype (Some d) c (after ls g h) = (Ok r, s') ->
    ll_solve ls g cg stype (Some d0) c0 (after ls g h0) = (Ok r0, s0') ->
    l_uinf s' = l_uinf s0' /\
    l_v s' = map2 (fun v sec => vsub v (vcross (body_rates (an d)) (vsub (s_r sec) cg))) (l_v s0') (g_sections g).
Proof.
  intros ls cosine pl g cg stype d c h r s' d0 c0 h0 r0 s0' Hg. intros.
  eapply C19_lemma; eauto. exact (grid_num cosine pl g Hg).
Qed.
Print Assumptions C19_rotation_rates.

Theorem C19_omitted_rates_are_zero :
  forall ls cosine (pl : airplane R) g cg stype d d' c h,
    make_grid cosine pl = Ok g ->
    given_aero (Some d) -> given_aero (Some d') -> als d' = als d ->
    (forall key, In key ["V_mag"; "rho"; "alpha"; "beta"]%string -> dget (an d') key = dget (an d) key) ->
    body_rates (an d') = body_rates (an d) ->
    let a := ll_solve ls g cg stype (Some d) c (after ls g h) in
    let a' := ll_solve ls g cg stype (Some d') c (after ls g h) in
    fst a' = fst a /\ (forall r, fst a = Ok r -> observed g (snd a') = observed g (snd a)).
Proof.
  intros ls cosine pl g cg stype d d' c h Hg. intros.
  apply C19_zero_lemma; auto. exact (grid_num cosine pl g Hg).
Qed.
Print Assumptions C19_omitted_rates_are_zero.

Example C19_applies :
  let d := straight 10 1 in
  let d' := MkAero [("V_mag", 10); ("rho", 1); ("roll_rate", 0); ("pitch_rate", 0); ("yaw_rate", 0)]%string None in
  given_aero (Some d) /\ given_aero (Some d') /\ als d' = als d /\
  (forall key, In key ["V_mag"; "rho"; "alpha"; "beta"]%string -> dget (an d') key = dget (an d) key) /\
  body_rates (an d') = body_rates (an d) /\ body_rates (an d) = V3 0 0 0.
Proof.
  cbv zeta. refine (conj _ (conj _ (conj eq_refl (conj _ (conj eq_refl eq_refl))))).
  - eexists; split; [reflexivity|left; discriminate].
  - eexists; split; [reflexivity|left; discriminate].
  - intros key [<- | [<- | [<- | [<- | []]]]]; reflexivity.
Qed.

(** *** C20 *)
Theorem C20_wing_wind_axes :
  forall ls (g : grid R) h k r s',
    call_solve ls g k (after ls g h) = (Ok r, s') ->
    vdot (l_uinf s') (l_uinf s') = 1 -> vx (l_uinf s') <> 0 \/ vz (l_uinf s') <> 0 ->
    exists res l sd, l_results s' = Some res /\ wind_frame (l_uinf s') l sd /\
      forall f, In f (parts res) ->
        FL f = vdot (force_of f) l /\ FD f = vdot (force_of f) (l_uinf s') /\ FS f = vdot (force_of f) sd /\
        FL f ^ 2 + FD f ^ 2 + FS f ^ 2 = FX f ^ 2 + FY f ^ 2 + FZ f ^ 2 /\
        force_of f = vadd (vadd (vscale (FL f) l) (vscale (FD f) (l_uinf s'))) (vscale (FS f) sd).
Proof. intros ls g h k r s' H. exact (C20_lemma ls g _ _ _ _ _ r s' H). Qed.
Print Assumptions C20_wing_wind_axes.

(** Given an airspeed and a sideslip other than 90 degrees the direction is a unit
    vector not parallel to the y axis, so that the previous theorem applies. *)
Theorem C20_wing_direction :
  forall ls cosine (pl : airplane R) g h k d r s' V,
    make_grid cosine pl = Ok g -> k_aero k = Some d -> dget (an d) "V_mag" = Some V -> 0 < V ->
    cos (degrees (entry (an d) "beta")) <> 0 ->
    call_solve ls g k (after ls g h) = (Ok r, s') ->
    vdot (l_uinf s') (l_uinf s') = 1 /\ (vx (l_uinf s') <> 0 \/ vz (l_uinf s') <> 0).
Proof.
  intros ls cosine pl g h k d r s' V Hg Hd HV Hp Hb H. unfold call_solve in H. rewrite Hd in H.
  eapply C20_direction; eauto. exact (grid_num cosine pl g Hg).
Qed.
Print Assumptions C20_wing_direction.

(** *** C21 *)
Theorem C21_total_is_inviscid_plus_viscous :
  forall ls cosine (pl : airplane R) g h k r s',
    exact_solver ls -> make_grid cosine pl = Ok g -> call_solve ls g k (after ls g h) = (Ok r, s') ->
    exists res rows, l_results s' = Some res /\ ll_distributions g s' = Ok rows /\
      List.length rows = List.length (g_sections g) /\
      force_of (r_inviscid res) = vtotal d_force rows /\
      (forall c, In c [@FL R; @FD R; @FS R; @FX R; @FY R; @FZ R; @MX R; @MY R; @MZ R] ->
         c (r_total res) = c (r_inviscid res) + c (r_viscous res)) /\
      (FD (r_total res) <> 0 -> r_LoD res = FL (r_total res) / FD (r_total res)).
Proof.
  intros ls cosine pl g h k r s' He Hg. intros. eapply C21_lemma; eauto. exact (grid_num cosine pl g Hg).
Qed.
Print Assumptions C21_total_is_inviscid_plus_viscous.

(** *** C22 *)
Theorem C22_lifting_line_equation :
  forall ls cosine (pl : airplane R) g h k r s',
    exact_solver ls -> make_grid cosine pl = Ok g -> call_solve ls g k (after ls g h) = (Ok r, s') ->
    vdot (l_uinf s') (l_uinf s') = 1 -> clear_of_vortices (l_uinf s') (g_sections g) ->
    exists gam loads, l_gamma s' = Some gam /\
      in_operation g (l_uinf s') (l_v s') (l_rho s') (acting g h k) gam loads /\
      Forall lifting_line_equation loads.
Proof.
  intros ls cosine pl g h k r s' He Hg H Hu _. eapply C22_lemma; eauto. exact (grid_num cosine pl g Hg).
Qed.
Print Assumptions C22_lifting_line_equation.

(** Away from the vortices no quotient of the code's induced-velocity formulas has a
    zero denominator. *)
Theorem C22_denominators_nonzero :
  forall u secs, vdot u u = 1 -> clear_of_vortices u secs ->
  forall i j si sj, nth_error secs i = Some si -> nth_error secs j = Some sj ->
    let a := vsub (s_r si) (s_r1 sj) in let b := vsub (s_r si) (s_r2 sj) in
    vnorm a * (vnorm a - vdot u a) <> 0 /\ vnorm b * (vnorm b - vdot u b) <> 0 /\
    (i <> j -> vnorm a * vnorm b * (vnorm a * vnorm b + vdot a b) <> 0).
Proof.
  intros u secs Hu Hc i j si sj Hi Hj. destruct (Hc i j si sj Hi Hj) as (A & B & C).
  refine (conj _ (conj _ _)).
  - now apply half_line_denominator.
  - now apply half_line_denominator.
  - intros Hij. now apply filament_denominator, C.
Qed.
Print Assumptions C22_denominators_nonzero.

(** *** C23 *)
Theorem C23_required_keys :
  forall (T : Type) (N : num_ops T) ls (g : grid T) h cg stype a c,
    let s := after ls g h in
    (~ usable_flow (g_num g) a ->
       exists e, ll_solve ls g cg stype a c s = (Err e, s) /\
                 (e = RuntimeError \/ (e = ValueError /\ exists d, a = Some d /\ als d <> None))) /\
    (~ usable_flow (g_num g) a -> (forall d, a = Some d -> als d = None) ->
       ll_solve ls g cg stype a c s = (Err RuntimeError, s)) /\
    (usable_flow (g_num g) a -> stype <> "linear"%string ->
       fst (ll_solve ls g cg stype a c s) = Err RuntimeError) /\
    (usable_flow (g_num g) a -> stype = "linear"%string ->
       fst (ll_solve ls g cg stype a c s) = Ok TheResultsDict \/
       fst (ll_solve ls g cg stype a c s) = Err LinAlgError).
Proof. intros. apply solve_errors. Qed.
Print Assumptions C23_required_keys.

Example C23_applies (n : nat) :
  ~ usable_flow n (Some (MkAero [("V_mag", 10); ("alpha", 5)]%string None)) /\
  usable_flow n (Some (straight 10 1)) /\
  ~ usable_flow 2 (Some (MkAero [] (Some [(1, V3 0 0 0); (1, V3 0 0 0); (1, V3 0 0 0)]))).
Proof.
  refine (conj _ (conj _ _)).
  - intros [H | [_ H]]; [discriminate|now apply H].
  - right. split; discriminate.
  - intros [H | H]; discriminate.
Qed.

(** *** C24 *)
Theorem C24_history_independence :
  forall (T : Type) (N : num_ops T) ls (g : grid T) h cg stype a c,
    given_aero a -> given_control c ->
    let call := ll_solve ls g cg stype a c in
    fst (call (after ls g h)) = fst (call (fresh g)) /\
    (forall r, fst (call (after ls g h)) = Ok r ->
       observed g (snd (call (after ls g h))) = observed g (snd (call (fresh g)))).
Proof. intros T N ls g h cg stype a c Ha Hc. exact (history_independent ls g h cg stype Ha Hc). Qed.
Print Assumptions C24_history_independence.

Example C24_applies : given_aero (Some (straight 10 1)) /\ given_control (Some [("elevator"%string, 5)]).
Proof. split; eexists; (split; [reflexivity|]); [left|]; discriminate. Qed.

(** *** C25 *)
Theorem C25_omitted_control_keeps_deflections :
  forall (T : Type) (N : num_ops T) ls (g : grid T) h cg stype a c d,
    omitted_control c -> control_in_force (g_num g) None h = Some d ->
    ll_solve ls g cg stype a c (after ls g h) = ll_solve ls g cg stype a (Some d) (after ls g h).
Proof. intros. apply omitted_control_keeps; auto. Qed.
Print Assumptions C25_omitted_control_keeps_deflections.

Theorem C25_no_control_yet_is_zero :
  forall ls cosine (pl : airplane R) g h cg stype a c c0,
    make_grid cosine pl = Ok g -> control_in_force (g_num g) None h = None ->
    omitted_control c -> zero_controls c0 ->
    let x := ll_solve ls g cg stype a c (after ls g h) in
    let y := ll_solve ls g cg stype a (Some c0) (after ls g h) in
    fst x = fst y /\ (forall r, fst x = Ok r -> observed g (snd x) = observed g (snd y)).
Proof.
  intros ls cosine pl g h cg stype a c c0 Hg. intros. apply C25_none_lemma; auto. exact (grid_num cosine pl g Hg).
Qed.
Print Assumptions C25_no_control_yet_is_zero.

(** The documentation's default of zero deflections does not hold: for an airplane
    built through the API there is a history after which the call without
    control_state and the call with zero controls both return, with different drag. *)
Theorem C25_documented_default_refuted :
  forall ls, exact_solver ls ->
  exists (pl : airplane R) g h cg a s1 s2 res1 res2, built pl /\ make_grid false pl = Ok g /\
    ll_solve ls g cg "linear" a None (after ls g h) = (Ok TheResultsDict, s1) /\ l_results s1 = Some res1 /\
    ll_solve ls g cg "linear" a (Some [("elevator"%string, 0)]) (after ls g h) = (Ok TheResultsDict, s2) /\
    l_results s2 = Some res2 /\ FX (r_viscous res1) < FX (r_viscous res2).
Proof.
  intros ls He. set (h := [flyer_call 10 1 (Some [("elevator"%string, 10)])]).
  destruct (flyer_returns ls 10 1 None h He ltac:(lra)) as (s1 & res1 & K1 & A1 & _ & _ & _ & _ & _ & F1 & _).
  destruct (flyer_returns ls 10 1 (Some [("elevator"%string, 0)]) h He ltac:(lra)) as (s2 & res2 & K2 & A2 & _ & _ & _ & _ & _ & F2 & _).
  exists flyer, flyer_grid, h, vzero, (Some (straight 10 1)), s1, s2, res1, res2.
  refine (conj flyer_built (conj (flyer_grid_ok _) (conj K1 (conj A1 (conj K2 (conj A2 _)))))).
  rewrite F1, F2.
  change (entry (acting flyer_grid h (flyer_call 10 1 None)) "elevator") with 10.
  change (entry (acting flyer_grid h (flyer_call 10 1 (Some [("elevator"%string, 0)]))) "elevator") with 0.
  rewrite Rabs_R0, (Rabs_pos_eq 10) by lra.
  assert (P : 0 < 2 * 1 * 10 * 10 * 10 / flyer_speed 10).
  { unfold flyer_speed. apply Rdiv_lt_0_compat; [lra|]. apply Rmult_lt_0_compat; [lra|]. apply sqrt_lt_R0. nra. }
  nra.
Qed.
Print Assumptions C25_documented_default_refuted.

Example C25_applies :
  control_in_force (T := R) 2 None [flyer_call 10 1 (Some [("elevator"%string, 10)]); flyer_call 10 1 None]
  = Some [("elevator"%string, 10)] /\
  control_in_force (T := R) 2 None [flyer_call 10 1 None] = None /\ zero_controls [("elevator"%string, 0)].
Proof. refine (conj eq_refl (conj eq_refl _)). unfold zero_controls. repeat split; discriminate. Qed.

(** *** C26 *)
Theorem C26_omitted_flow_leaks :
  forall (T : Type) (N : num_ops T) ls (g : grid T) h cg stype a c r s',
    omitted_aero a -> ll_solve ls g cg stype a c (after ls g h) = (Ok r, s') ->
    l_v s' = map (fun v => V3 (nint (-10)) (vy v) (vz v)) (l_v (after ls g h)) /\
    l_uinf s' = V3 (nint (-1)) (vy (l_uinf (after ls g h))) (vz (l_uinf (after ls g h))) /\
    l_rho s' = l_rho (after ls g h).
Proof. intros T N ls g h cg stype a c r s' Ha H. eapply omitted_flow; eauto. Qed.
Print Assumptions C26_omitted_flow_leaks.

Theorem C26_documented_flow_after_head_on_calls :
  forall ls cosine (pl : airplane R) g h cg stype a c,
    make_grid cosine pl = Ok g -> Forall (fun k => head_on (k_aero k)) h -> omitted_aero a ->
    let x := ll_solve ls g cg stype a c (after ls g h) in
    let y := ll_solve ls g cg stype (Some ten_head_on) c (after ls g h) in
    fst x = fst y /\ (forall r, fst x = Ok r -> observed g (snd x) = observed g (snd y)).
Proof. intros ls cosine pl g h cg stype a c Hg. intros. apply C26_clean; auto. exact (grid_num cosine pl g Hg). Qed.
Print Assumptions C26_documented_flow_after_head_on_calls.

Theorem C26_documented_default_refuted :
  forall ls, exact_solver ls ->
  exists (pl : airplane R) g h cg s1 s2 res1 res2, built pl /\ make_grid false pl = Ok g /\
    ll_solve ls g cg "linear" None None (after ls g h) = (Ok TheResultsDict, s1) /\ l_results s1 = Some res1 /\
    ll_solve ls g cg "linear" (Some ten_head_on) None (after ls g h) = (Ok TheResultsDict, s2) /\
    l_results s2 = Some res2 /\ FZ (r_inviscid res1) = 2 * FZ (r_inviscid res2) /\ FZ (r_inviscid res2) < 0.
Proof.
  intros ls He. set (h := [flyer_call 10 2 None]).
  destruct (flyer_omitted ls 10 2 [] He ltac:(lra)) as (s1 & res1 & K1 & A1 & F1).
  destruct (flyer_returns ls 10 1 None h He ltac:(lra)) as (s2 & res2 & K2 & A2 & _ & _ & _ & _ & F2 & _).
  exists flyer, flyer_grid, h, vzero, s1, s2, res1, res2.
  refine (conj flyer_built (conj (flyer_grid_ok _) (conj K1 (conj A1 (conj K2 (conj A2 _)))))).
  pose proof (flyer_gamma_pos 10 ltac:(lra)). rewrite F1, F2. split; [ring|nra].
Qed.
Print Assumptions C26_documented_default_refuted.

Example C26_applies : Forall (fun k => head_on (k_aero k)) [flyer_call 30 1 None; MkSolveCall vzero "linear" None None].
Proof.
  constructor; [|constructor; [left; left; reflexivity|constructor]].
  right. eexists. split; [reflexivity|]. split; [reflexivity|]. intros _ _. repeat split.
Qed.

(** *** C27 (wing solves; MachUp.solve: Props_MU.v) *)
Theorem C27_wing_results_alias :
  forall (T : Type) (N : num_ops T) ls (g : grid T) h k1 k2 r1 s1 r2 s2,
    call_solve ls g k1 (after ls g h) = (Ok r1, s1) -> call_solve ls g k2 s1 = (Ok r2, s2) ->
    r1 = r2 /\ exists res2, l_results s2 = Some res2 /\ read_ref s2 r1 = Some res2.
Proof. exact @C27_lemma. Qed.
Print Assumptions C27_wing_results_alias.

(** The first call's object reads differently after the second call. *)
Theorem C27_wing_results_stay_refuted :
  forall ls, exact_solver ls ->
  exists (pl : airplane R) g k1 k2 r s1 s2 before after2, built pl /\ make_grid false pl = Ok g /\
    call_solve ls g k1 (fresh g) = (Ok r, s1) /\ read_ref s1 r = Some before /\
    call_solve ls g k2 s1 = (Ok r, s2) /\ read_ref s2 r = Some after2 /\
    FZ (r_inviscid after2) = 2 * FZ (r_inviscid before) /\ FZ (r_inviscid before) < 0.
Proof.
  intros ls He.
  destruct (flyer_returns ls 10 1 None [] He ltac:(lra)) as (s1 & res1 & K1 & A1 & _ & _ & _ & _ & F1 & _).
  destruct (flyer_returns ls 10 2 None [flyer_call 10 1 None] He ltac:(lra)) as (s2 & res2 & K2 & A2 & _ & _ & _ & _ & F2 & _).
  change (after ls flyer_grid [flyer_call 10 1 None]) with (snd (call_solve ls flyer_grid (flyer_call 10 1 None) (after ls flyer_grid []))) in K2.
  rewrite K1 in K2. cbn [snd] in K2.
  exists flyer, flyer_grid, (flyer_call 10 1 None), (flyer_call 10 2 None), TheResultsDict, s1, s2, res1, res2.
  refine (conj flyer_built (conj (flyer_grid_ok _) (conj K1 (conj A1 (conj K2 (conj A2 _)))))).
  pose proof (flyer_gamma_pos 10 ltac:(lra)). rewrite F1, F2. split; [ring|nra].
Qed.
Print Assumptions C27_wing_results_stay_refuted.

(** *** C28 *)
Theorem C28_dynamic_pressure_similarity :
  forall m k, 0 < k ->
  forall ls cosine (pl : airplane R) g h cg stype d d' c,
    exact_solver ls -> make_grid cosine pl = Ok g -> given_aero (Some d) -> scaled m k d d' ->
    let a := ll_solve ls g cg stype (Some d) c (after ls g h) in
    let a' := ll_solve ls g cg stype (Some d') c (after ls g h) in
    fst a' = fst a /\
    forall r, fst a = Ok r ->
    exists res res' gam, l_results (snd a) = Some res /\ l_results (snd a') = Some res' /\
      l_gamma (snd a) = Some gam /\ l_gamma (snd a') = Some (map (Rmult k) gam) /\
      r_inviscid res' = fm_times (m * k ^ 2) (r_inviscid res) /\
      r_viscous res' = fm_times (m * k ^ 2) (r_viscous res) /\
      r_total res' = fm_times (m * k ^ 2) (r_total res) /\
      (m <> 0 -> FD (r_total res) <> 0 -> r_LoD res' = r_LoD res).
Proof.
  intros m k Hk ls cosine pl g h cg stype d d' c He Hg. intros. apply similarity; auto. exact (grid_num cosine pl g Hg).
Qed.
Print Assumptions C28_dynamic_pressure_similarity.

Example C28_applies : given_aero (Some (straight 10 1)) /\ scaled 3 2 (straight 10 1) (straight 20 3).
Proof.
  split; [eexists; split; [reflexivity|left; discriminate]|]. split; [|reflexivity].
  assert (E : straight 20 3 = straight (2 * 10) (3 * 1)) by (replace 20 with (2 * 10) by lra; replace (3 * 1) with 3 by lra; reflexivity).
  rewrite E. clear E.
  intros key. destruct (string_dec key "V_mag") as [-> | N1]; [reflexivity|].
  destruct (string_dec key "rho") as [-> | N2]; [reflexivity|].
  assert (E : forall V r, dget (an (straight V r)) key = None).
  { intros V r. unfold straight; cbn [an]. apply String.eqb_neq in N1, N2. cbn [dget]. now rewrite N1, N2. }
  rewrite !E. reflexivity.
Qed.

(** *** C29 *)
Theorem C29_lateral_symmetry :
  forall ls cosine (pl : airplane R) g h k d r s',
    exact_solver ls -> built pl -> make_grid cosine pl = Ok g ->
    (forall w, In w (lookup_wings pl) -> symmetric_wing pl w) ->
    (forall s, In s (wingsegments pl) -> 0 < sg_span s) ->
    k_aero k = Some d -> given_aero (Some d) -> symmetric_flow d -> vy (k_cg k) = 0 ->
    symmetric_controls (acting g h k) ->
    call_solve ls g k (after ls g h) = (Ok r, s') ->
    exists res, l_results s' = Some res /\
      (forall f, In f (parts res) -> FY f = 0 /\ FS f = 0 /\ MX f = 0 /\ MZ f = 0) /\
      exists gam, l_gamma s' = Some gam /\
        forall i s y, nth_error (g_sections g) i = Some s -> nth_error gam i = Some y ->
        exists j t, nth_error (g_sections g) j = Some t /\ t = mirror_section (s_name t) s /\ nth_error gam j = Some y.
Proof. exact C29_lemma. Qed.
Print Assumptions C29_lateral_symmetry.

Example C29_applies :
  (forall w, In w (lookup_wings (flyer (T := R))) -> symmetric_wing flyer w) /\
  (forall s, In s (wingsegments (flyer (T := R))) -> 0 < sg_span s) /\
  symmetric_flow (straight 10 1) /\ symmetric_controls (acting flyer_grid [] (flyer_call 10 1 (Some [("elevator"%string, 5)]))).
Proof.
  refine (conj _ (conj _ (conj _ _))).
  - intros w Hw. rewrite flyer_eq in *. destruct Hw as [<- | []]. apply sym_top; [reflexivity|].
    intros s [<- | [<- | []]]; (split; [reflexivity|right; split; reflexivity]).
  - intros s Hs. rewrite flyer_segs in Hs. destruct Hs as [<- | [<- | []]]; cbn [seg_l seg_r flyer_seg sg_span]; rnum; lra.
  - repeat split.
  - split; reflexivity.
Qed.

(** *** C30 *)
Theorem C30_moment_transfer :
  forall ls cosine (pl : airplane R) g h stype cg d a c r s',
    exact_solver ls -> make_grid cosine pl = Ok g ->
    (forall d0, a = Some d0 -> body_rates (an d0) = V3 0 0 0) ->
    ll_solve ls g cg stype a c (after ls g h) = (Ok r, s') ->
    exists s'', ll_solve ls g (vadd cg d) stype a c (after ls g h) = (Ok r, s'') /\
    exists res res', l_results s' = Some res /\ l_results s'' = Some res' /\
      transferred d (r_inviscid res) (r_inviscid res') /\ transferred d (r_viscous res) (r_viscous res') /\
      transferred d (r_total res) (r_total res') /\ r_LoD res' = r_LoD res.
Proof.
  intros ls cosine pl g h stype cg d a c r s' He Hg Ha H. pose proof (grid_num cosine pl g Hg) as Hn.
  eapply C30_lemma; eauto. now apply after_sized.
Qed.
Print Assumptions C30_moment_transfer.

(** *** C31 *)
Theorem C31_effective_deflection :
  forall x, effective_deflection (- x) = - effective_deflection x /\
    (Rabs x <= 11 -> effective_deflection x = degrees x) /\
    (11 < Rabs x -> effective_deflection x =
       (109589743589744 / 100000000000000 - 871794871794872 / 100000000000000000 * Rabs x) * degrees x).
Proof.
  intros x. destruct (efficiency_facts x) as (A & B & C). unfold effective_deflection.
  refine (conj C (conj _ _)); intros H; [rewrite (A H); ring|now rewrite (B H)].
Qed.
Print Assumptions C31_effective_deflection.

(** The solve uses it: the lift of the lifting-line equation is that of the section
    with flap effectiveness times effective deflection, and the reported section drag
    is the polar's plus 0.002 per degree commanded. *)
Theorem C31_deflection_in_solve :
  forall ls cosine (pl : airplane R) g h k r s' i s,
    exact_solver ls -> make_grid cosine pl = Ok g -> call_solve ls g k (after ls g h) = (Ok r, s') ->
    vdot (l_uinf s') (l_uinf s') = 1 -> nth_error (g_sections g) i = Some s ->
    let cmd := commanded (acting g h k) s in
    exists v y w rows row, nth_error (l_v s') i = Some v /\ ll_distributions g s' = Ok rows /\ nth_error rows i = Some row /\
      (exists gam, l_gamma s' = Some gam /\ nth_error gam i = Some y) /\
      2 * vnorm (vcross v (vsub (s_r2 s) (s_r1 s))) * y
      = vnorm v ^ 2 * s_dS s * lift_coefficient s (atan (vdot v (s_un s) / vdot v (s_ua s)))
                                 (s_flap_eff s * effective_deflection cmd)
        + vnorm v * s_dS s * tm (s_cla s) * vdot (s_un s) w /\
      d_cd row = drag_coefficient s (d_cl row) 0 + 2 / 1000 * Rabs cmd.
Proof.
  intros ls cosine pl g h k r s' i s He Hg H Hu Hi cmd. pose proof (grid_num cosine pl g Hg) as Hn.
  destruct (C22_lemma ls g h k r s' He Hn H Hu) as (gam & loads & Eg & Io & Ell).
  destruct (C61_lemma ls g h k r s' He Hn H Hu) as (gam' & loads' & res & Eg' & Er & Io' & _ & _ & _ & _ & Ed).
  assert (E : gam' = gam) by congruence. subst gam'.
  destruct Io as [I1 I2 I3 I4 I5 I6]. destruct Io' as [J1 J2 J3 J4 J5 J6].
  assert (Hx : exists x, nth_error loads i = Some x /\ ld_sec x = s).
  { rewrite <- I1, nth_error_map in Hi. destruct (nth_error loads i) as [x|]; [|discriminate]. exists x. cbn in Hi. split; congruence. }
  assert (Hx' : exists x, nth_error loads' i = Some x /\ ld_sec x = s).
  { rewrite <- J1, nth_error_map in Hi. destruct (nth_error loads' i) as [x|]; [|discriminate]. exists x. cbn in Hi. split; congruence. }
  destruct Hx as (x & Hx & Esx). destruct Hx' as (x' & Hx' & Esx').
  assert (Ec : ld_cmd x = cmd).
  { assert (K : nth_error (map ld_cmd loads) i = Some (ld_cmd x)) by (rewrite nth_error_map, Hx; reflexivity).
    rewrite I4, nth_error_map, Hi in K. cbn in K. unfold cmd. congruence. }
  assert (Ec' : ld_cmd x' = cmd).
  { assert (K : nth_error (map ld_cmd loads') i = Some (ld_cmd x')) by (rewrite nth_error_map, Hx'; reflexivity).
    rewrite J4, nth_error_map, Hi in K. cbn in K. unfold cmd. congruence. }
  rewrite Forall_forall in Ell. pose proof (Ell x (nth_error_In _ _ Hx)) as Q.
  do 2 eexists. exists (ld_w x). do 2 eexists.
  refine (conj _ (conj Ed (conj _ (conj _ (conj _ _))))).
  - rewrite <- I2, nth_error_map, Hx. reflexivity.
  - rewrite nth_error_map, Hx'. reflexivity.
  - exists gam. split; auto. rewrite <- I5, nth_error_map, Hx. reflexivity.
  - unfold lifting_line_equation, ld_dl in Q. rewrite Ec, Esx in Q. unfold effective_deflection. rewrite <- Rmult_assoc. exact Q.
  - cbn [d_cd d_cl]. unfold ld_cd. rewrite Esx', Ec'. unfold drag_coefficient. rewrite Rabs_R0. ring.
Qed.
Print Assumptions C31_deflection_in_solve.

(** *** C32 *)
Theorem C32_stall_report :
  forall ls cosine (pl : airplane R) g h k r s',
    exact_solver ls -> built pl -> make_grid cosine pl = Ok g -> call_solve ls g k (after ls g h) = (Ok r, s') ->
    exists rows report, ll_distributions g s' = Ok rows /\ find_stall_location g s' = Ok report /\
      List.length rows = List.length (g_sections g) /\
      (report <> None <->
       exists i s row, nth_error (g_sections g) i = Some s /\ nth_error rows i = Some row /\ tm (s_clmax s) < d_cl row) /\
      (forall name f, report = Some (name, f) ->
       exists i s row sg, nth_error (g_sections g) i = Some s /\ nth_error rows i = Some row /\ tm (s_clmax s) < d_cl row /\
         (forall j s'0 row', (j < i)%nat -> nth_error (g_sections g) j = Some s'0 -> nth_error rows j = Some row' ->
            d_cl row' <= tm (s_clmax s'0)) /\
         In sg (wingsegments pl) /\ name = sg_name sg /\ name = d_name row /\
         f = from_root (sg_side sg) (s_sp s) /\ 0 < f < 1).
Proof. exact C32_lemma. Qed.
Print Assumptions C32_stall_report.

(** The flyer is stalled, at mid semispan of its left wing. *)
Example C32_applies : exists s',
  call_solve gauss_solver flyer_grid (flyer_call 10 1 None) (fresh flyer_grid) = (Ok TheResultsDict, s') /\
  find_stall_location flyer_grid s' = Ok (Some ("left_main"%string, 1 - 1 / 2)).
Proof.
  destruct (flyer_returns gauss_solver 10 1 None [] gauss_exact ltac:(lra)) as (s' & res & K & _ & _ & _ & _ & _ & _ & _ & E).
  exists s'. split; [exact K|]. unfold find_stall_location. rewrite E. f_equal.
  cbn [flyer_grid g_sections sec_l first_stalled flyer_section s_clmax s_name s_sp].
  assert (Hc : ngtb (6 * (flyer_alpha + 1 / 10)) (tm (same3 (4 / 10))) = true).
  { rnum. cbn [same3 tm]. apply Rltb_true. unfold flyer_alpha.
    assert (Ha : atan flyer_down <= flyer_down).
    { assert (P : 0 < flyer_down) by (unfold flyer_down; pose proof PI_RGT_0; apply Rdiv_lt_0_compat; lra).
      destruct (MVT_cor2 atan (fun x => / (1 + x ^ 2)) 0 flyer_down P) as (c & Ec & _).
      { intros c _. apply derivable_pt_lim_atan. }
      rewrite atan_0 in Ec. assert (B : / (1 + c ^ 2) <= 1) by (rewrite <- Rinv_1 at 2; apply Rinv_le_contravar; nra).
      nra. }
    assert (Hd : flyer_down <= 1 / 10 / 4).
    { unfold flyer_down. pose proof PI2_3_2. apply Rmult_le_compat_l; [lra|]. apply Rinv_le_contravar; lra. }
    lra. }
  rewrite Hc. reflexivity.
Qed.

(** *** C61 *)
Theorem C61_section_loads :
  forall ls cosine (pl : airplane R) g h k r s',
    exact_solver ls -> make_grid cosine pl = Ok g -> call_solve ls g k (after ls g h) = (Ok r, s') ->
    vdot (l_uinf s') (l_uinf s') = 1 -> clear_of_vortices (l_uinf s') (g_sections g) ->
    exists gam loads res, l_gamma s' = Some gam /\ l_results s' = Some res /\
      in_operation g (l_uinf s') (l_v s') (l_rho s') (acting g h k) gam loads /\
      force_of (r_inviscid res) = vtotal vortex_force loads /\
      moment_of (r_inviscid res) = vtotal (vortex_moment (k_cg k)) loads /\
      force_of (r_viscous res) = vtotal parasitic_force loads /\
      moment_of (r_viscous res) = vtotal (parasitic_moment (k_cg k)) loads /\
      ll_distributions g s' = Ok (map (fun x => let s := ld_sec x in
        MkDist (s_name s) (s_r s) (s_c s) (s_mount s - s_washout s) (s_dihedral s) (s_sweep s) (s_dS s)
               (ld_alpha x) (vortex_force x) (ld_cl x) (ld_cm x) (ld_cd x) (tm (s_al0 s))) loads).
Proof.
  intros ls cosine pl g h k r s' He Hg H Hu _. eapply C61_lemma; eauto. exact (grid_num cosine pl g Hg).
Qed.
Print Assumptions C61_section_loads.
