(** Property theorems: the response of the wings to their controls, and wings without load. *)
From Coq Require Import Reals ZArith String Bool Arith Lia Lra List.
From Verif Require Import Base Num RVec Geometry Grid LLModel Spec_Grid Spec_LL Spec_BS Spec_Resp LL_state LL_R LL_solve LL_props LL_thm LL_resp Grid_thm Linalg Demo_LL.
Import ListNotations.
Local Open Scope R_scope.

(** Every grid [make_grid] returns has [g_num g = length (g_sections g)] sections. *)

(** *** C73 *)
(** Whether a solve in a given flow returns, or what it raises, is the same for all settings of
    the controls and all histories. *)
Theorem C73_controls_do_not_decide :
  forall ls (g : grid R) cg d (c c' : dict R) h h',
    exact_solver ls -> g_num g = List.length (g_sections g) -> given_aero (Some d) -> c <> [] -> c' <> [] ->
    fst (ll_solve ls g cg "linear" (Some d) (Some c) (after ls g h))
    = fst (ll_solve ls g cg "linear" (Some d) (Some c') (after ls g h')).
Proof. intros ls g cg d c c' h h' He Hn Ha Hc Hc'. exact (controls_do_not_decide ls g cg d c c' _ _ He Hn Ha Hc Hc'). Qed.
Print Assumptions C73_controls_do_not_decide.

(** Up to 11 degrees the circulation of every section is the sum of what each control makes of it. *)
Theorem C73_circulation_superposes :
  forall ls (g : grid R) cg d,
    exact_solver ls -> g_num g = List.length (g_sections g) -> given_aero (Some d) ->
    exists G, forall (c : dict R) h s', c <> [] -> moderate g c ->
      ll_solve ls g cg "linear" (Some d) (Some c) (after ls g h) = (Ok TheResultsDict, s') ->
      l_gamma s' = Some (map (fun k => superposed k c) G).
Proof.
  intros ls g cg d He Hn Ha. destruct (circulation_superposes ls g cg d He Hn Ha) as [G H].
  exists G. intros c h s'. apply H.
Qed.
Print Assumptions C73_circulation_superposes.

(** Along any line of settings within 11 degrees each component of the inviscid force is a
    differentiable function whose derivative is its central difference, with any step. *)
Theorem C73_central_differences_are_exact :
  forall ls (g : grid R) cg d c0 dc,
    exact_solver ls -> g_num g = List.length (g_sections g) -> given_aero (Some d) ->
    exists F : (fm R -> R) -> R -> R,
      (forall t c h s', along c0 dc t c -> moderate g c ->
         ll_solve ls g cg "linear" (Some d) (Some c) (after ls g h) = (Ok TheResultsDict, s') ->
         exists r, read_ref s' TheResultsDict = Some r /\
           forall comp, In comp force_readings -> comp (r_inviscid r) = F comp t) /\
      (forall comp t h, h <> 0 -> derivable_pt_lim (F comp) t ((F comp (t + h) - F comp (t - h)) / (2 * h))).
Proof.
  intros ls g cg d c0 dc He Hn Ha. destruct (forces_along ls g cg d c0 dc He Hn Ha) as (F & H & D).
  exists F. split; [|exact D]. intros t c h s'. apply H.
Qed.
Print Assumptions C73_central_differences_are_exact.

(** *** C74 *)
Theorem C74_no_load :
  forall ls (g : grid R) h k r s',
    exact_solver ls -> g_num g = List.length (g_sections g) -> call_solve ls g k (after ls g h) = (Ok r, s') ->
    vdot (l_uinf s') (l_uinf s') = 1 ->
    exists gam loads res, l_gamma s' = Some gam /\ l_results s' = Some res /\
      in_operation g (l_uinf s') (l_v s') (l_rho s') (acting g h k) gam loads /\
      (Forall (fun x => lift_alone x = 0) loads <-> Forall (fun x => x = 0) gam) /\
      (Forall (fun x => lift_alone x = 0) loads ->
         Forall (fun comp : fm R -> R => comp (r_inviscid res) = 0) force_readings /\
         Forall (fun x => ld_vel x = ld_v x) loads).
Proof.
  intros ls g h k r s' He Hn H Hu. exact (no_load ls g h k r s' He Hn H Hu).
Qed.
Print Assumptions C74_no_load.

(** *** The two-section wing of Demo_LL.v with a surface that is fully effective *)
Definition flapped_section (name : string) (y : R) : section R :=
  MkSection name (1/2) 0 1 (V3 0 (y + 2) 0) (V3 0 y 0) (V3 0 (y + 4) 0) 1 1 1 4
            (same3 6) (same3 (-1/10)) (same3 0) (same3 (-5/100)) (same3 (1/100)) (same3 0) (same3 0) (same3 (4/10))
            0 0 0 0 (V3 (-1) 0 0) (V3 0 0 (-1)) (V3 0 (-1) 0) 1 0 1 0 0 0 4.
Definition flapped : grid R :=
  MkGrid 2 [seg_l; seg_r] [(0, 1); (1, 2)]%nat [flapped_section "left_main" (-4); flapped_section "right_main" 0] 8.
Definition elevator (e : R) : dict R := [("elevator"%string, e)].
Lemma flapped_moderate e : Rabs e <= 11 -> moderate flapped (elevator e).
Proof.
  intros H. assert (E : forall name y, commanded (elevator e) (flapped_section name y) = e).
  { intros. unfold commanded, elevator, entry. cbn [dget String.eqb Ascii.eqb Bool.eqb flapped_section s_mix_a s_mix_e s_mix_r s_mix_f]. ring. }
  unfold moderate, flapped. cbn [g_sections]. repeat apply Forall_cons; try apply Forall_nil; rewrite E; exact H.
Qed.
Lemma flapped_base V rho : 0 < V ->
  base_flow (g_num flapped) (straight V rho) = Ok ([back V; back V], V3 (-1) 0 0, [rho; rho]).
Proof.
  intros HV.
  change (base_flow (g_num flapped) (straight V rho)) with (Ok (repeat (freestream V 0 0) 2, unit_of (freestream V 0 0), repeat rho 2)).
  rewrite (freestream_straight_back V HV). cbn [repeat]. do 3 f_equal.
  unfold unit_of. rewrite norm_back by auto. apply vec_eq; cbn [vdivs back vx vy vz]; rnum; field; lra.
Qed.
(** circulation 1 + 10 times the deflection (in radians) of that of the undeflected wing *)
Definition flapped_gamma (V e : R) : R := flyer_gamma V * (1 + 10 * degrees e).
Lemma flapped_returns ls V rho e h : exact_solver ls -> 0 < V -> Rabs e <= 11 ->
  exists s', ll_solve ls flapped vzero "linear" (Some (straight V rho)) (Some (elevator e)) (after ls flapped h) = (Ok TheResultsDict, s') /\
    l_gamma s' = Some [flapped_gamma V e; flapped_gamma V e].
Proof.
  intros He HV Hm.
  assert (Hg : given_aero (Some (straight V rho))) by (exists (straight V rho); split; auto; left; discriminate).
  pose proof (solve_given ls flapped vzero (straight V rho) (elevator e) (after ls flapped h) eq_refl Hg ltac:(discriminate)) as P.
  rewrite (flapped_base V rho HV) in P. cbv zeta in P.
  set (ps := given_places flapped vzero (straight V rho) [back V; back V] [rho; rho]) in P.
  assert (Ep : ps = [(flapped_section "left_main" (-4), back V, rho); (flapped_section "right_main" 0, back V, rho)]).
  { unfold ps, given_places. change (body_rates (an (straight V rho))) with (V3 0 0 0 : vec3 R).
    cbn [flapped g_sections map2 places]. rewrite !at_section_0. reflexivity. }
  clearbody ps. subst ps.
  assert (EA : a_matrix (V3 (-1) 0 0) (map (in_place (elevator e)) [(flapped_section "left_main" (-4), back V, rho); (flapped_section "right_main" 0, back V, rho)])
    = a_matrix (V3 (-1) 0 0) (flyer_cells V rho 0 0 0 0)).
  { unfold a_matrix, mapi, flyer_cells. cbn [map mapi_from Nat.eqb]. unfold a_entry, induced, in_place, p_sec, p_v.
    cbn [fst snd c_v c_sec flapped_section sec_l sec_r flyer_section s_r s_r1 s_r2 s_dS s_cla s_un]. reflexivity. }
  assert (EB : map b_entry (map (in_place (elevator e)) [(flapped_section "left_main" (-4), back V, rho); (flapped_section "right_main" 0, back V, rho)])
    = map (Rmult (1 + 10 * degrees e)) (map b_entry (flyer_cells V rho 0 0 0 0))).
  { rewrite (proj2 (flyer_matrix V rho 0 0 0 0 HV)). cbn [map].
    assert (B : forall name y, b_entry (in_place (elevator e) (flapped_section name y, back V, rho)) = (1 + 10 * degrees e) * (24 / 10 * V ^ 2)).
    { intros name y.
      assert (Ec : commanded (elevator e) (flapped_section name y) = e).
      { unfold commanded, elevator, entry. cbn [dget String.eqb Ascii.eqb Bool.eqb flapped_section s_mix_a s_mix_e s_mix_r s_mix_f]. ring. }
      rewrite b_moderate; unfold p_sec, p_v; cbn [fst snd]; rewrite Ec; [|exact Hm].
      unfold b_zero, slope, p_sec, p_v. cbn [fst snd]. rewrite norm_back by auto.
      assert (Z : atan (vdot (back V) (s_un (flapped_section name y)) / vdot (back V) (s_ua (flapped_section name y))) = 0).
      { cbn [flapped_section s_un s_ua]. unfold back. transitivity (atan 0); [f_equal; vunf; field; lra|apply atan_0]. }
      rewrite Z. unfold lift_coefficient, across, degrees. cbn [flapped_section s_dS s_sp s_cla s_al0 s_flap_eff same3 tl tr]. field. }
    rewrite !B. reflexivity. }
  rewrite EA, EB in P. destruct (flyer_matrix V rho 0 0 0 0 HV) as [EM _].
  assert (An : ls (a_matrix (V3 (-1) 0 0) (flyer_cells V rho 0 0 0 0)) (map (Rmult (1 + 10 * degrees e)) (map b_entry (flyer_cells V rho 0 0 0 0)))
    = Some [flapped_gamma V e; flapped_gamma V e]).
  { pose proof (exact_answer _ _ _ _ He (flyer_answer ls V rho 0 0 0 0 He HV)) as [S _].
    destruct (a_matrix_square (V3 (-1) 0 0) (flyer_cells V rho 0 0 0 0)) as [Sq Ln].
    destruct (any_rhs ls _ (map b_entry (flyer_cells V rho 0 0 0 0)) (map (Rmult (1 + 10 * degrees e)) (map b_entry (flyer_cells V rho 0 0 0 0))) _ He Sq
      ltac:(rewrite Ln; reflexivity) ltac:(rewrite Ln; reflexivity) (flyer_answer ls V rho 0 0 0 0 He HV)) as [y Hy].
    pose proof (He _ (map (Rmult (1 + 10 * degrees e)) (map b_entry (flyer_cells V rho 0 0 0 0))) Sq ltac:(rewrite Ln; reflexivity)) as Q.
    rewrite Hy in Q |- *. destruct Q as [_ Q]. f_equal. symmetry. apply Q. destruct S as [S1 S2]. split; [exact S1|].
    rewrite <- S2, map_map. apply map_ext. intros row. unfold row_times, flapped_gamma.
    destruct row as [|a [|b row]]; cbn [map2]; rewrite ?nsum_cons, ?nsum_nil; rnum; try ring.
    destruct row; cbn [map2]; rewrite ?nsum_nil; ring. }
  rewrite An in P. destruct P as (s' & P & Pg & _). eauto.
Qed.

(** The hypotheses of C73 hold for this wing; the elevator changes its circulation. *)
Example C73_applies : exists ls, exact_solver ls /\ g_num flapped = List.length (g_sections flapped) /\
  given_aero (Some (straight 10 1)) /\
  (forall t, -1 <= t <= 1 -> along (elevator 5) (elevator 2) t (elevator (5 + t * 2)) /\ moderate flapped (elevator (5 + t * 2)) /\
     forall h, exists s', ll_solve ls flapped vzero "linear" (Some (straight 10 1)) (Some (elevator (5 + t * 2))) (after ls flapped h) = (Ok TheResultsDict, s') /\
       l_gamma s' = Some [flapped_gamma 10 (5 + t * 2); flapped_gamma 10 (5 + t * 2)]) /\
  flapped_gamma 10 3 <> flapped_gamma 10 7.
Proof.
  exists gauss_solver. split; [exact gauss_exact|]. split; [reflexivity|]. split; [eexists; split; [reflexivity|left; discriminate]|]. split.
  - intros t Ht. assert (Hm : Rabs (5 + t * 2) <= 11) by (apply Rabs_le; lra). split; [|split].
    + split; [discriminate|]. intros key. unfold entry, elevator. cbn [dget]. destruct (String.eqb _ _); ring.
    + now apply flapped_moderate.
    + intros h. apply flapped_returns; [exact gauss_exact|lra|exact Hm].
  - unfold flapped_gamma, degrees. pose proof (flyer_gamma_pos 10 ltac:(lra)). pose proof PI_RGT_0. nra.
Qed.

(** Elevator up by a tenth of a radian takes all load off this wing. *)
Example C74_applies : exists ls, exact_solver ls /\ forall h,
  exists s', call_solve ls flapped (MkSolveCall vzero "linear" (Some (straight 10 1)) (Some (elevator (- (18 / PI))))) (after ls flapped h)
             = (Ok TheResultsDict, s') /\ l_gamma s' = Some [0; 0].
Proof.
  exists gauss_solver. split; [exact gauss_exact|]. intros h. pose proof PI2_3_2. pose proof PI_RGT_0.
  assert (Hm : Rabs (- (18 / PI)) <= 11).
  { rewrite Rabs_Ropp, Rabs_pos_eq. 2: apply Rlt_le, Rdiv_lt_0_compat; lra.
    apply (Rmult_le_reg_r PI); [lra|]. unfold Rdiv. rewrite Rmult_assoc, Rinv_l by lra. lra. }
  destruct (flapped_returns gauss_solver 10 1 (- (18 / PI)) h gauss_exact ltac:(lra) Hm) as (s' & E & G).
  exists s'. split; [exact E|]. rewrite G. replace (flapped_gamma 10 (- (18 / PI))) with 0; [reflexivity|].
  unfold flapped_gamma, degrees. field. lra.
Qed.
