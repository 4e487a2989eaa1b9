(** Concrete models for the examples of Props_MU.v. *)
From Coq Require Import Reals ZArith String Bool Arith Lia Lra List.
From Verif Require Import Base Num RVec Geometry Api Grid LLModel PropModel Spec_Grid Spec_Geom Spec_LL Spec_Prop MU Spec_MU
  LL_state LL_R LL_solve LL_props LL_thm Linalg Linalg2 Demo Demo_LL Prop_state Prop_thm Prop_thm4 Prop_thm5 Prop_thm6 Prop_thm7
  MU_thm MU_thm2 MU_thm3 MU_thm4 MU_thm5 MU_thm6 MU_thm13 MU_thm14 MU_thm15.
Import ListNotations.
Local Open Scope string_scope.
Local Open Scope R_scope.

(** *** Environments *)
(** exact linear algebra *)
Definition gauss_env : menv R := MkME gauss_solver demo_env gauss_inv (fun x => x) 100.
(** a linear solver that always answers (with the right-hand side) *)
Definition easy_env : menv R := MkME (fun _ b => Some b) demo_env gauss_inv (fun x => x) 100.

(** *** The flyer of Demo_LL.v as a MachUp object *)
Definition flyer_machup : machup R := MkMU (Some flyer_grid) (Some (MkRefs 8 8 1)) [] (Some 2%nat) vzero.
Lemma flyer_made E : make_machup E flyer = Ok flyer_machup.
Proof.
  unfold make_machup. rewrite (flyer_grid_ok true). rewrite flyer_eq. cbn [flyer_val a_wings a_props rbind option_map flyer_grid g_sections map List.length a_cg].
  f_equal. unfold flyer_machup. f_equal. f_equal. unfold make_refs, flyer_val. cbn [a_lat_ref a_long_ref g_segments g_ref_area flyer_grid].
  assert (Hw : widest (T := R) [seg_l; seg_r] = 8).
  { unfold widest. cbn [fold_left seg_l seg_r flyer_seg sg_span]. rnum.
    assert (G1 : ngtb (2 * 4) 0 = true) by (unfold ngtb; apply Rltb_true; lra).
    assert (G2 : ngtb (2 * 4) (2 * 4) = false) by (unfold ngtb; apply Rltb_false; lra).
    cbv zeta. rewrite !G1, G2. lra. }
  rewrite Hw. rnum. f_equal. field.
Qed.

(** Solves of the flyer: with exact linear algebra in a straight flow ... *)
Lemma flyer_solves V rho c f files : 0 < V ->
  exists res w', mu_solve gauss_env flyer_machup None f (MkW (Some (straight V rho)) c (init_mstate flyer_machup) files [])
    = (Ok (add_fm zero_fm (r_total res)), w') /\
    l_results (m_ll (w_model w')) = Some res /\
    FZ (r_inviscid res) = - (8 * (rho * flyer_gamma V * V)) /\
    l_cl (m_ll (w_model w')) = Some [6 * (flyer_alpha + 1 / 10); 6 * (flyer_alpha + 1 / 10)].
Proof.
  intros HV. destruct (flyer_returns gauss_solver V rho c [] gauss_exact HV) as (s' & res & K & K1 & _ & _ & _ & _ & K2 & _ & K3).
  unfold call_solve in K. cbn [after fold_left flyer_call k_cg k_stype k_aero k_ctl] in K.
  assert (Hg : given (straight V rho)) by (left; discriminate).
  set (w := MkW _ _ _ _ _). destruct (solve_given gauss_env flyer_machup None f w _ eq_refl Hg) as (r & a' & s1 & P & A1 & A2 & A3 & A4 & _).
  unfold solve_parts in P. cbn [flyer_machup mm_props mm_grid mm_cg me_lsolve gauss_env w w_ctl w_model init_mstate m_ll m_ps] in P.
  change (init_ll (g_num flyer_grid)) with (fresh (T := R) flyer_grid) in P. rewrite K in P. cbn [read_ref] in P. rewrite K1 in P.
  injection P as Pr Pa Ps. subst r s1. cbn [rbind snd] in A4.
  exists res, (snd (mu_solve gauss_env flyer_machup None f w)). rewrite <- A4.
  split; [apply surjective_pairing|]. rewrite A3. cbn [m_ll]. auto.
Qed.

(** ... and, for every usable flow, with a linear solver that always answers. *)
Lemma wings_answer (ls : linear_solver (T := R)) g cg a c s : (forall A b, ls A b <> None) -> usable_flow (g_num g) (Some a) ->
  exists l res, ll_solve ls g cg "linear" (Some a) c s = (Ok TheResultsDict, l) /\ l_results l = Some res.
Proof.
  intros answers Hu.
  pose proof (solve_errors ls g cg "linear" (Some a) c s) as (_ & _ & _ & K).
  specialize (K Hu eq_refl).
  destruct (ll_solve ls g cg "linear" (Some a) c s) as [r l] eqn:Es. cbn [fst] in K.
  destruct K as [->| ->].
  - destruct (ll_solve_inv _ _ _ _ _ _ _ Es) as (s1 & s2 & _ & _ & _ & K). apply linear_solve_results in K.
    destruct K as [res K]. eexists _, _. eauto.
  - exfalso. unfold ll_solve, sbind in Es. destruct (process_aero g cg (Some a) s) as [[[]|e] s1] eqn:Ep.
    + destruct (process_control g c s1) as [[[]|e] s2] eqn:Epc.
      * cbn in Es. unfold linear_solve in Es. pose proof (answers (a_matrix (l_uinf s2) (cells g s2)) (map b_entry (cells g s2))) as An.
        destruct (ls _ _); [discriminate|easy].
      * unfold process_control in Epc. destruct (opt_truthy dtruthy c); discriminate.
    + apply usable_flow_spec in Hu. destruct (process_aero_ok g cg (Some a) s Hu) as (s3 & K & _). congruence.
Qed.

(** *** The flyer with the propeller of Prop_thm6.v *)
Definition tractor : airplane R :=
  MkAirplane "tractor" (a_wings flyer) (a_store flyer) [("main", demo_prop)] vzero None None None (Some (Some "English")).
Lemma tractor_grid : make_grid true tractor = Ok flyer_grid.
Proof. rewrite <- (flyer_grid_ok true). reflexivity. Qed.
Lemma tractor_solves c f : exists E X t w',
  make_machup E tractor = Ok X /\ mm_grid X = Some flyer_grid /\ List.length (mm_props X) = 1%nat /\
  mu_solve E X (Some [("J", PNum (/ 2))]) f (MkW (Some cruise) c (init_mstate X) [] []) = (Ok t, w').
Proof.
  set (pts := map (@s_r R) (g_sections flyer_grid)).
  destruct (demo_returns (Some pts) vzero [1 / 2; 1 / 3] eq_refl) as (m & g & [pt rows] & ss' & M1 & M2 & M3 & _).
  set (E := MkME (fun _ b => Some b) (with_memory m demo_env) gauss_inv (fun x => x) 100%nat).
  set (X := MkMU (Some flyer_grid) (Some (make_refs tractor flyer_grid)) [g] (Some 2%nat) vzero).
  assert (Em : make_machup E tractor = Ok X).
  { unfold make_machup. rewrite tractor_grid.
    assert (Ew : a_wings tractor <> []) by (unfold tractor; rewrite flyer_eq; discriminate).
    destruct (a_wings tractor) as [|q ws]; [congruence|]. cbn [rbind option_map].
    change (a_props tractor) with [("main", demo_prop)]. cbv iota.
    fold pts. replace (make_props (me_prop E) tractor (Some pts)) with (@Ok (list (pgeom R)) [g]) by (symmetry; exact M1).
    reflexivity. }
  exists E, X.
  destruct (solve_given E X (Some [("J", PNum (/ 2))]) f (MkW (Some cruise) c (init_mstate X) [] []) cruise eq_refl ltac:(left; discriminate))
    as (r & a' & s1 & P & A1 & A2 & A3 & A4 & _).
  unfold solve_parts in P. cbn [X mm_props mm_grid mm_cg w_ctl w_model init_mstate m_ll m_ps mm_points] in P.
  change (option_map (List.length (A:=vec3 R)) (Some pts)) with (Some 2%nat) in M3.
  change (me_prop E) with (with_memory m demo_env) in P. rewrite M3 in P.
  assert (Hr : exists rs, rows = Some rs /\ List.length rs = 2%nat).
  { unfold props_solve, sbind in M3. destruct (calc_forces _ _ _ _ _ _) as [[q0|e] s0]; [|discriminate]. unfold slift in M3.
    destruct (velocity_field (Some cruise) 2) as [rows0|e] eqn:Ev; [|discriminate].
    unfold sget, sret in M3. apply pair_equal_spec in M3. destruct M3 as [M3 _]. injection M3 as _ M3. eexists. split; [symmetry; exact M3|].
    change (List.length (slipstreams [g] s0 rows0) = 2%nat). apply slipstreams_length.
    - injection Ev as <-. reflexivity.
    - intros g0 q1 I1 I2. rewrite (props_rows _ _ _ _ M1 g0 q1 I1 I2). reflexivity. }
  destruct Hr as (rs & -> & Hl).
  destruct (wings_answer (me_lsolve E) flyer_grid vzero (set_local cruise rs) c (init_ll (g_num flyer_grid))) as (l & res & B1 & B2).
  { discriminate. }
  { cbn. now right. }
  rewrite B1 in P. cbn [read_ref] in P. rewrite B2 in P. injection P as <- _ _. cbn [rbind snd] in A4.
  eexists _, _. split; [exact Em|]. split; [reflexivity|]. split; [reflexivity|].
  rewrite surjective_pairing at 1. rewrite A4. reflexivity.
Qed.
