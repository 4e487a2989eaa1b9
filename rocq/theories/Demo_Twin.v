(** The flyer with two propellers outboard of its tips (examples for C79, C80 and C81). *)
From Coq Require Import Reals ZArith String Bool Arith Lia Lra List Permutation.
From Verif Require Import Base Num RVec Geometry Api Grid LLModel PropModel Spec_Grid Spec_Geom Spec_LL Spec_Prop MU Spec_MU
  Spec_Mirror Spec_MirrorProp
  Prop_state Prop_thm Prop_thm2 Prop_thm4 Prop_thm5 Prop_thm6 Prop_thm7 LL_state LL_R LL_solve LL_props LL_thm Linalg Linalg2 Demo Demo_LL
  MU_thm MU_thm3 MU_thm5 MU_thm9 MU_thm13 MU_thm15 MU_thm17 Demo_MU Prop_mirror.
Import ListNotations.
Local Open Scope string_scope.
Local Open Scope R_scope.

(** *** The airplane *)
Section Winged.
  Context {T : Type} {N : num_ops T}.
  Definition blank_file : pyval T :=
    VDict [("plane", VDict [("name", VStr "twin"); ("CGx", VNone); ("CGy", VNone); ("CGz", VNone)]);
           ("reference", VDict [("longitudinal_length", VNone); ("lateral_length", VNone)]);
           ("condition", VDict [("units", VStr "English")])].
  Definition blank : airplane T :=
    MkAirplane "twin" [] [] [] vzero None None None (Some (Some "English")).
  Lemma blank_built : built blank.
  Proof. apply (built_file "twin" None blank_file). reflexivity. Qed.
  Definition winged (ps : dict (prop T)) : airplane T :=
    MkAirplane "twin" (a_wings flyer) (a_store flyer) ps vzero None None None (Some (Some "English")).
  Lemma winged_eq : run_calls flyer_calls blank = winged [].
  Proof. vm_compute. reflexivity. Qed.
End Winged.

Definition engine (name : string) (y : R) (turns : string) : prop R :=
  MkProp name (V3 1 y 0) 0 0 2 1 (1 / 5) 2 (VStr turns) [("type", VStr "default")] [("type", VStr "default")] [] [].
Definition engine_call (name : string) (y : R) (turns : string) : api_call R :=
  CAddProp name [("position", VList [VNum 1; VNum y; VNum 0]); ("orientation", VList [VNum 0; VNum 0]); ("nodes", VInt 2);
                 ("hub_diameter", VNum (1 / 5)); ("rot_dir", VStr turns)].
Lemma engine_added name y turns ps : run_call (engine_call name y turns) (winged ps) = winged (dset ps name (engine name y turns)).
Proof. reflexivity. Qed.
Lemma winged_built : built (winged (T := R) []).
Proof. rewrite <- winged_eq. apply built_calls, blank_built. Qed.

Definition left_engine := engine "left" (-5) "CCW".
Definition right_engine := engine "right" 5 "CW".
(** counter-rotating propellers *)
Definition twin : airplane R := winged [("left", left_engine); ("right", right_engine)].
(** the same entered in the other order *)
Definition twin_swapped : airplane R := winged [("right", right_engine); ("left", left_engine)].
(** one propeller left of the wing, and its mirror image *)
Definition lopsided : airplane R := winged [("left", left_engine)].
Definition lopsided' : airplane R := winged [("left", engine "left" 5 "CW")].

Lemma lopsided_built : built lopsided.
Proof. change lopsided with (run_call (engine_call "left" (-5) "CCW") (winged [])). constructor. exact winged_built. Qed.
Lemma twin_built : built twin.
Proof. change twin with (run_call (engine_call "right" 5 "CW") lopsided). constructor. exact lopsided_built. Qed.
Lemma winged_segs ps : wingsegments (winged (T := R) ps) = [seg_l; seg_r].
Proof. exact flyer_segs. Qed.
Lemma winged_symmetric ps : mirror_symmetric (winged (T := R) ps).
Proof.
  split.
  - intros w Hw. left. unfold lookup_wings in Hw. cbn [winged a_wings a_store] in Hw. unfold winged. rewrite flyer_eq in *. destruct Hw as [<- | []]. apply sym_top; [reflexivity|].
    intros s [<- | [<- | []]]; (split; [reflexivity|right; split; reflexivity]).
  - intros s Hs. rewrite winged_segs in Hs. destruct Hs as [<- | [<- | []]]; cbn [seg_l seg_r flyer_seg sg_span]; rnum; lra.
Qed.
Lemma engines_mirrored n n' : mirrored_prop (engine n (-5) "CCW") (engine n' 5 "CW").
Proof.
  split; cbn [engine pr_position pr_elevation pr_heading pr_rot_dir pr_nodes pr_diameter pr_hub pr_blades pr_pitch pr_chord pr_airfoils pr_motor];
    try reflexivity; try (split; [reflexivity|]; try reflexivity; split; reflexivity).
  - unfold mirror. cbn [vx vy vz]. apply vec_eq; cbn [vx vy vz]; lra.
  - lra.
Qed.
Lemma engines_mirrored' n n' : mirrored_prop (engine n 5 "CW") (engine n' (-5) "CCW").
Proof.
  split; cbn [engine pr_position pr_elevation pr_heading pr_rot_dir pr_nodes pr_diameter pr_hub pr_blades pr_pitch pr_chord pr_airfoils pr_motor];
    try reflexivity; try (split; [reflexivity|]; try reflexivity; split; reflexivity).
  - lra.
  - unfold rot_dir. cbn. lra.
Qed.
Lemma twin_twins : twin_propellers twin.
Proof.
  exists [("right", right_engine); ("left", left_engine)]. split; [apply perm_swap|].
  constructor; [apply engines_mirrored|]. constructor; [apply engines_mirrored'|constructor].
Qed.
Lemma lopsided_mirrored : mirrored_airplane lopsided lopsided'.
Proof.
  split; try reflexivity; try (split; [reflexivity|]; try reflexivity; split; reflexivity).
  - symmetry. exact mirror_zero.
  - constructor; [|constructor]. split; [reflexivity|]. split; [reflexivity|]. apply engines_mirrored.
Qed.
Lemma twin_reordered : reordered_props twin twin_swapped.
Proof. split; try reflexivity; try (split; [reflexivity|]; try reflexivity; split; reflexivity). apply perm_swap. Qed.

(** *** One engine *)
Lemma engine_make E u wp name y turns : exists g, make_pgeom E u wp (engine name y turns) = Ok g /\
  List.length (pg_stations g) = 2%nat /\ forall z, In z (pg_stations g) ->
    z_zeta z <> 0 /\ z_cb z <> 0 /\ Rabs (z_beta z - Ratan2 (/ 2) (PI * z_zeta z)) < 1.
Proof.
  destruct (demo_make E u wp) as (g & Hg & Hl & _). pose proof (demo_stations _ _ _ _ Hg) as Hz. pose proof PI_gt_3 as Hpi.
  assert (Hs : exists g', make_pgeom E u wp (engine name y turns) = Ok g' /\ pg_stations g' = pg_stations g).
  { revert Hg. unfold make_pgeom. change (zetas (engine name y turns)) with (zetas demo_prop).
    change (PropModel.coefficients (engine name y turns)) with (PropModel.coefficients demo_prop). change (PropModel.pitch E (engine name y turns)) with (PropModel.pitch E demo_prop).
    change (PropModel.chord E (engine name y turns)) with (PropModel.chord E demo_prop). change (PropModel.make_motor (engine name y turns)) with (PropModel.make_motor demo_prop).
    destruct (zetas demo_prop) as [zs|]; [|discriminate]. cbn [rbind]. destruct (PropModel.coefficients demo_prop zs) as [c|]; [|discriminate]. cbn [rbind].
    destruct (PropModel.pitch E demo_prop) as [b|]; [|discriminate]. cbn [rbind]. destruct (PropModel.chord E demo_prop zs) as [cb|]; [|discriminate]. cbn [rbind].
    destruct (PropModel.make_motor demo_prop) as [mo|]; [|discriminate]. cbn [rbind]. intros Hg.
    apply (f_equal (fun o => match o with Ok y => pg_stations y | Err _ => [] end)) in Hg. cbn [pg_stations] in Hg.
    eexists. split; [reflexivity|]. cbn [pg_stations]. exact Hg. }
  destruct Hs as (g' & Hg' & Es). exists g'. split; [exact Hg'|]. rewrite Es. split; [exact Hl|].
  intros z Hin. destruct (Hz z Hin) as (Z1 & Z2 & Z3). split; [lra|]. split; [exact Z2|].
  rewrite Z3, atan2_pos by (apply Rmult_lt_0_compat; lra).
  replace (1 / 2) with (/ 2) by lra. unfold Rabs. destruct (Rcase_abs _); lra.
Qed.
Definition half_J : option (dict (pval R)) := Some [("J", PNum (/ 2))].
Lemma left_runs pts cg : exists m g q s',
  make_pgeom (with_memory m demo_env) (Some "English") pts left_engine = Ok g /\
  run_prop (with_memory m demo_env) cg (Some cruise) half_J g (init_pstate g) = (Ok q, s').
Proof.
  destruct (engine_make demo_env (Some "English") pts "left" (-5) "CCW") as (g & Hg & Hl & Hz).
  destruct (C52_lemma demo_env (Some "English") pts left_engine g cg cruise 100 (1 / 400) (/ 2) [1 / 2; 1 / 3] Hg) as (m & q & s' & Hr & _);
  try reflexivity.
  - left. cbn. unfold degrees. replace (0 * PI / 180) with 0 by field. rewrite cos_0. lra.
  - lra.
  - lra.
  - cbn. lra.
  - cbn. lia.
  - cbn. lia.
  - intros K. rewrite K in Hl. discriminate.
  - discriminate.
  - exact Hz.
  - now rewrite Hl.
  - exists m, g, q, s'. split; [exact Hg|exact Hr].
Qed.
Lemma cruise_mirrored : mirrored_flow cruise cruise.
Proof. split; try reflexivity; try (split; reflexivity); cbn; lra. Qed.
(** ... and its twin *)
Lemma right_runs m pts g q s' name : make_pgeom (with_memory m demo_env) (Some "English") pts left_engine = Ok g ->
  name <> "J" ->
  run_prop (with_memory m demo_env) vzero (Some cruise) half_J g (init_pstate g) = (Ok q, s') ->
  exists g' q', make_pgeom (with_memory m demo_env) (Some "English") pts (engine name 5 "CW") = Ok g' /\
    run_prop (with_memory m demo_env) vzero (Some cruise) half_J g' (init_pstate g') = (Ok q', pmir s').
Proof.
  intros Hg Hn Hr.
  pose proof (make_pgeom_mirror (fun _ _ => True) (with_memory m demo_env) (Some "English") pts left_engine (engine name 5 "CW") I
    (fun _ _ _ => eq_refl) (engines_mirrored _ _)) as M. rewrite Hg in M.
  destruct (make_pgeom (with_memory m demo_env) (Some "English") pts (engine name 5 "CW")) as [g'|] eqn:Hg'; [|contradiction].
  cbn [res_rel] in M. destruct M as [M _].
  assert (Ns : pg_name g' = name /\ pg_name g = "left").
  { destruct (make_pgeom_data _ _ _ _ _ Hg) as (_ & _ & _ & _ & En & _). destruct (make_pgeom_data _ _ _ _ _ Hg') as (_ & _ & _ & _ & En' & _).
    now rewrite En, En'. }
  destruct Ns as [N' N0].
  pose proof (run_prop_equi _ _ _ _ M vzero cruise cruise half_J) as K. rewrite N', N0 in K.
  specialize (K ltac:(unfold local_state, half_J; cbn [dget]; destruct (String.eqb_spec name "J"); [contradiction|reflexivity])
    ltac:(discriminate) ltac:(discriminate) cruise_mirrored).
  unfold equi in K. specialize (K (init_pstate g)). rewrite Hr, mirror_zero in K. rewrite <- (init_mirror _ _ _ _ M) in K. cbn [fst snd] in K.
  exists g'. eexists. split; [reflexivity|exact K].
Qed.

(** *** The wings: no section is in a slipstream *)
Definition head_on : R * vec3 R := (1 / 400, vscale 100 (freestream 1 (dgetd (an cruise) "alpha" n0) (dgetd (an cruise) "beta" n0))).
Lemma head_on_back : snd head_on = back 100.
Proof.
  unfold head_on. cbn [snd cruise an dgetd dget String.eqb Ascii.eqb Bool.eqb].
  change (@n0 R Rnum) with 0. change (@n1 R Rnum) with 1. rewrite (freestream_straight_back 1) by lra.
  apply vec_eq; cbn [back vscale vx vy vz]; rnum; ring.
Qed.
Lemma outside (g : pgeom R) E u pts name y turns : make_pgeom E u (Some pts) (engine name y turns) = Ok g ->
  y = 5 \/ y = -5 -> forall pt, pt = s_r sec_l \/ pt = s_r sec_r ->
  exists pos f d, pg_wing g = Some (map (wing_point pos f d) pts) /\ vdot f f = 1 /\ ~ in_streamtube pos f d pt.
Proof.
  intros Hg Hy pt Hp. destruct (make_pgeom_data _ _ _ _ _ Hg) as (_ & _ & _ & _ & _ & _ & Ew).
  eexists _, _, _. split; [exact Ew|]. cbn [engine pr_elevation pr_heading pr_position pr_diameter].
  assert (Ef : propeller_axis 0 0 = V3 1 0 0).
  { unfold propeller_axis. cbv zeta. unfold degrees. replace (0 * PI / 180) with 0 by field. rewrite sin_0, cos_0. apply vec_eq; cbn [vx vy vz]; ring. }
  rewrite Ef. split; [unfold vdot; cbn [vx vy vz]; rnum; ring|].
  intros [_ K]. unfold vnorm in K. rnum.
  assert (Hc : 9 <= vdot (vcross (vsub pt (V3 1 y 0)) (V3 1 0 0)) (vcross (vsub pt (V3 1 y 0)) (V3 1 0 0))).
  { destruct Hp as [-> | ->]; unfold sec_l, sec_r, flyer_section, vdot, vcross, vsub; cbn [s_r vx vy vz]; rnum; destruct Hy as [-> | ->]; lra. }
  assert (3 <= sqrt (vdot (vcross (vsub pt (V3 1 y 0)) (V3 1 0 0)) (vcross (vsub pt (V3 1 y 0)) (V3 1 0 0)))).
  { rewrite <- (sqrt_Rsqr 3) by lra. apply sqrt_le_1_alt. unfold Rsqr. lra. }
  unfold vdot in *. rnum. lra.
Qed.
Definition two_points : list (vec3 R) := [s_r sec_l; s_r sec_r].
Lemma undisturbed gs ss : (forall g : pgeom R, In g gs -> exists E u name y turns, make_pgeom E u (Some two_points) (engine name y turns) = Ok g /\ (y = 5 \/ y = -5)) ->
  slipstreams gs ss [head_on; head_on] = [head_on; head_on].
Proof.
  intros H.
  assert (L : List.length (slipstreams gs ss [head_on; head_on]) = 2%nat).
  { apply slipstreams_length; [reflexivity|]. intros g q I1 I2. destruct (H g I1) as (E & u & name & y & turns & Hg & Hy).
    destruct (make_pgeom_data _ _ _ _ _ Hg) as (_ & _ & _ & _ & _ & _ & Ew). rewrite Ew in I2. injection I2 as <-. reflexivity. }
  assert (P : forall i pt, nth_error two_points i = Some pt -> nth_error (slipstreams gs ss [head_on; head_on]) i = Some head_on).
  { intros i pt Hp. apply (slipstreams_out gs ss _ i head_on two_points pt); [|exact Hp|].
    - destruct i as [|[|i]]; [reflexivity|reflexivity|]. destruct i; discriminate Hp.
    - intros g Hg. destruct (H g Hg) as (E & u & name & y & turns & Hm & Hy). apply (outside g E u two_points name y turns Hm Hy).
      destruct i as [|[|i]]; [| |destruct i; discriminate Hp]; cbn [two_points nth_error] in Hp; injection Hp as <-; auto. }
  destruct (slipstreams gs ss [head_on; head_on]) as [|a [|b [|? ?]]]; try discriminate L.
  pose proof (P 0%nat _ eq_refl) as P0. pose proof (P 1%nat _ eq_refl) as P1. cbn [nth_error] in P0, P1. congruence.
Qed.
Lemma wing_returns ls c s : exact_solver ls -> sized flyer_grid s ->
  exists s' r, ll_solve ls flyer_grid vzero "linear" (Some (set_local cruise [head_on; head_on])) c s = (Ok TheResultsDict, s') /\
    l_results s' = Some r.
Proof.
  intros He Hz.
  assert (Hg : given_aero (Some (set_local cruise [head_on; head_on]))) by (eexists; split; [reflexivity|left; discriminate]).
  assert (Hn : g_num flyer_grid = List.length (g_sections flyer_grid)) by reflexivity.
  pose proof (process_aero_base flyer_grid vzero _ s Hn Hg) as P.
  change (base_flow (g_num flyer_grid) (set_local cruise [head_on; head_on])) with
    (Ok ([snd head_on; snd head_on], unit_of (freestream (T := R) 100 0 0), [1 / 400; 1 / 400])) in P.
  rewrite (freestream_straight_back 100) in P by lra. rewrite head_on_back in P.
  destruct P as (s1 & H1 & Ev & Eu & Er & Ed & Ee & _ & _).
  change (body_rates (an (set_local cruise [head_on; head_on]))) with (V3 0 0 0 : vec3 R) in Ev.
  cbn [map2 g_sections flyer_grid] in Ev. rewrite !at_section_0 in Ev.
  assert (Eu' : l_uinf s1 = V3 (-1) 0 0).
  { rewrite Eu. unfold unit_of. rewrite norm_back by lra. apply vec_eq; cbn [vdivs back vx vy vz]; rnum; field; lra. }
  destruct (process_control_ok flyer_grid c s1) as (s2 & H2).
  destruct (process_control_flow _ _ _ H2) as (F1 & F2 & F3 & _).
  pose proof (process_aero_sized flyer_grid Hn vzero (Some (set_local cruise [head_on; head_on])) s Hz) as Hz1. rewrite H1 in Hz1. cbn [snd] in Hz1.
  pose proof (process_control_sized flyer_grid c s1 Hz1) as Hz2. rewrite H2 in Hz2. cbn [snd] in Hz2.
  destruct Hz2 as (_ & _ & Z3 & Z4). cbn [g_sections flyer_grid List.length] in Z3, Z4.
  destruct (l_delta s2) as [|d1 [|d2 [|]]] eqn:Ed2; try discriminate.
  destruct (l_eff s2) as [|e1 [|e2 [|]]] eqn:Ee2; try discriminate.
  destruct (Demo_LL.flyer_solves ls vzero _ c s s1 s2 100 (1 / 400) d1 d2 e1 e2 He ltac:(lra) H1 H2)
    as (s' & res & K & R1 & _); try congruence.
  exists s', res. auto.
Qed.

(** *** Both together *)
Lemma props_go m gs ss : (forall g : pgeom R, In g gs -> exists E u name y turns, make_pgeom E u (Some two_points) (engine name y turns) = Ok g /\ (y = 5 \/ y = -5)) ->
  gs <> [] -> Forall2 (fun g s => exists q, run_prop (with_memory m demo_env) vzero (Some cruise) half_J g (init_pstate g) = (Ok q, s)) gs ss ->
  exists pt, props_solve (with_memory m demo_env) vzero (Some 2%nat) (Some cruise) half_J gs (map init_pstate gs) =
    (Ok (pt, Some [head_on; head_on]), ss).
Proof.
  intros Hm Hne Hr.
  assert (HR : exists qs, run_props (with_memory m demo_env) vzero (Some cruise) half_J gs (map init_pstate gs) = (Ok qs, ss) /\
            List.length qs = List.length gs).
  { clear Hm Hne. induction Hr as [|g s gs ss [q Hq] H IH]; [exists []; split; reflexivity|].
    destruct IH as (qs & IH & Lq). exists (q :: qs). cbn [map run_props]. rewrite Hq, IH. cbn [List.length]. split; [reflexivity|lia]. }
  destruct HR as (qs & HR & Lq). unfold props_solve, calc_forces, sbind. rewrite HR.
  destruct (last_of qs) as [[[[F M] Th] l]|] eqn:El.
  2:{ unfold last_of in El. apply nth_error_None in El. destruct gs; [congruence|]. cbn [List.length] in Lq. lia. }
  change (velocity_field (Some cruise) 2) with (@Ok (list (R * vec3 R)) [head_on; head_on]).
  unfold slift, sget, sret. eexists. rewrite (undisturbed gs ss Hm). reflexivity.
Qed.
Lemma winged_solves m gs ss ps : ps <> [] -> gs <> [] ->
  make_props (with_memory m demo_env) (winged ps) (Some two_points) = Ok gs ->
  (forall g : pgeom R, In g gs -> exists E u name y turns, make_pgeom E u (Some two_points) (engine name y turns) = Ok g /\ (y = 5 \/ y = -5)) ->
  Forall2 (fun g s => exists q, run_prop (with_memory m demo_env) vzero (Some cruise) half_J g (init_pstate g) = (Ok q, s)) gs ss ->
  let E := MkME gauss_solver (with_memory m demo_env) gauss_inv (fun x => x) 100%nat in
  exists X f, make_machup E (winged ps) = Ok X /\ mm_grid X = Some flyer_grid /\ mm_props X = gs /\
    solve_all E X (init_mstate X) [MkArgs cruise None half_J] = [Ok f].
Proof.
  intros Hps Hne Hmp Hm Hr E.
  set (X := MkMU (Some flyer_grid) (Some (make_refs (winged ps) flyer_grid)) gs (Some 2%nat) vzero).
  assert (Em : make_machup E (winged ps) = Ok X).
  { unfold make_machup. assert (Eg : make_grid true (winged ps) = Ok flyer_grid) by (rewrite <- (flyer_grid_ok true); reflexivity).
    rewrite Eg. assert (Ew : a_wings (winged (T := R) ps) <> []) by (unfold winged; rewrite flyer_eq; discriminate).
    destruct (a_wings (winged ps)) as [|q ws]; [congruence|]. cbn [rbind option_map].
    change (a_props (winged ps)) with ps. destruct ps as [|p0 ps]; [congruence|]. cbv iota.
    change (map (@s_r R) (g_sections flyer_grid)) with two_points.
    replace (make_props (me_prop E) (winged (p0 :: ps)) (Some two_points)) with (@Ok (list (pgeom R)) gs) by (symmetry; exact Hmp).
    reflexivity. }
  destruct (props_go m gs ss Hm Hne Hr) as (pt & Hs).
  destruct (wing_returns gauss_solver None (init_ll 2) gauss_exact) as (l & r & W1 & W2).
  { repeat split. }
  exists X.
  destruct (solve_given E X half_J None (MkW (Some cruise) None (init_mstate X) [] []) cruise eq_refl ltac:(left; discriminate))
    as (q & a' & s1 & P & A1 & A2 & A3 & A4 & _).
  unfold solve_parts in P. cbn [X mm_props mm_grid mm_cg w_ctl w_model init_mstate m_ll m_ps mm_points] in P.
  destruct gs as [|g0 gs]; [congruence|].
  change (me_prop E) with (with_memory m demo_env) in P. rewrite Hs in P.
  change (g_num flyer_grid) with 2%nat in P. change (me_lsolve E) with gauss_solver in P. rewrite W1 in P.
  cbn [read_ref] in P. rewrite W2 in P.
  apply pair_equal_spec in P. destruct P as [P _]. apply pair_equal_spec in P. destruct P as [P _]. subst q. cbn [rbind snd] in A4.
  eexists. split; [exact Em|]. split; [reflexivity|]. split; [reflexivity|].
  cbn [solve_all sa_prop sa_aero sa_ctl].
  destruct (mu_solve E X half_J None (MkW (Some cruise) None (init_mstate X) [] [])) as [q w]. cbn [fst] in A4. rewrite A4. reflexivity.
Qed.

Definition twin_call : solve_args := MkArgs cruise None half_J.
Lemma twin_solves : exists E, exact_solver (me_lsolve E) /\ (forall n n', pe_mem (me_prop E) n = pe_mem (me_prop E) n') /\
  (exists X f, make_machup E twin = Ok X /\ mm_grid X = Some flyer_grid /\ List.length (mm_props X) = 2%nat /\
     solve_all E X (init_mstate X) [twin_call] = [Ok f]) /\
  (exists X f, make_machup E lopsided = Ok X /\ mm_grid X = Some flyer_grid /\ List.length (mm_props X) = 1%nat /\
     solve_all E X (init_mstate X) [twin_call] = [Ok f]).
Proof.
  destruct (left_runs (Some two_points) vzero) as (m & g & q & s & Hg & Hr).
  destruct (right_runs m (Some two_points) g q s "right" Hg ltac:(discriminate) Hr) as (g' & q' & Hg' & Hr').
  exists (MkME gauss_solver (with_memory m demo_env) gauss_inv (fun x => x) 100%nat).
  split; [exact gauss_exact|]. split; [reflexivity|].
  assert (M1 : exists E u name y turns, make_pgeom E u (Some two_points) (engine name y turns) = Ok g /\ (y = 5 \/ y = -5)) by (eexists _, _, _, _, _; split; [exact Hg|now right]).
  assert (M2 : exists E u name y turns, make_pgeom E u (Some two_points) (engine name y turns) = Ok g' /\ (y = 5 \/ y = -5)) by (eexists _, _, _, _, _; split; [exact Hg'|now left]).
  split.
  - destruct (winged_solves m [g; g'] [s; pmir s] [("left", left_engine); ("right", right_engine)]) as (X & f & A & B & C & D); try discriminate.
    + unfold make_props. cbn [winged a_props map snd rmap]. unfold get_units. cbn [winged a_units rbind]. rewrite Hg.
      unfold right_engine. rewrite Hg'. reflexivity.
    + intros k [<- | [<- | []]]; assumption.
    + constructor; [eauto|]. constructor; [eauto|constructor].
    + exists X, f. rewrite C. auto.
  - destruct (winged_solves m [g] [s] [("left", left_engine)]) as (X & f & A & B & C & D); try discriminate.
    + unfold make_props. cbn [winged a_props map snd rmap]. unfold get_units. cbn [winged a_units rbind]. rewrite Hg. reflexivity.
    + intros k [<- | []]; assumption.
    + constructor; [eauto|constructor].
    + exists X, f. rewrite C. auto.
Qed.
