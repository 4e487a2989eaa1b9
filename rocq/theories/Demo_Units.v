(** The flyer in two systems of units (examples and counterexample for C72). *)
From Coq Require Import Reals ZArith String Bool Arith Lia Lra List.
From Verif Require Import Base Num RVec Geometry Api Grid LLModel PropModel Spec_Grid Spec_Geom Spec_LL Spec_Prop MU Spec_MU
  Prop_state Prop_thm Prop_thm4 Prop_thm5 Prop_thm6 Prop_thm7 LL_state LL_R LL_solve LL_props LL_thm Linalg Linalg2 Demo Demo_LL MU_thm MU_thm3 MU_thm5 MU_thm9 MU_thm13 MU_thm17 Demo_MU
  Spec_Units LL_units MU_units.
Import ListNotations.
Local Open Scope string_scope.
Local Open Scope R_scope.

Definition level (V rho : R) : aero_state R := MkAero [("V_mag", V); ("rho", rho); ("alpha", 0)] None.
Lemma level_in m k l V rho V' rho' : V' = k * V -> rho' = m * rho -> state_in m k l (level V rho) (level V' rho').
Proof.
  intros -> ->. split; [|reflexivity]. intros key. unfold level, entry_in. cbn [an dget].
  destruct (key =? "V_mag") eqn:E1; [apply String.eqb_eq in E1; subst key; reflexivity|].
  destruct (key =? "rho") eqn:E2; [reflexivity|].
  destruct (key =? "alpha") eqn:E3; [apply String.eqb_eq in E3; subst key; reflexivity|reflexivity].
Qed.
Definition neutral : dict R := [("elevator", 0)].

Lemma flyer_level V rho : 0 < V -> exists f, forces gauss_env flyer_machup None (level V rho) (Some neutral) = Ok f.
Proof.
  intros HV. unfold forces. cbn [host_of h_solve]. unfold solve_parts.
  cbn [flyer_machup mm_props mm_grid mm_cg gauss_env me_lsolve init_mstate m_ll m_ps].
  set (s := init_ll (g_num flyer_grid)).
  assert (Hg : given_aero (Some (level V rho))) by (exists (level V rho); split; auto; left; discriminate).
  assert (Hn : g_num flyer_grid = List.length (g_sections flyer_grid)) by reflexivity.
  pose proof (process_aero_base flyer_grid vzero (level V rho) s Hn Hg) as P.
  change (base_flow (g_num flyer_grid) (level V rho)) with
    (Ok (repeat (freestream V 0 0) 2, unit_of (freestream V 0 0), repeat rho 2)) in P.
  rewrite (freestream_straight_back V HV) in P.
  destruct P as (s1 & H1 & Ev & Eu & Er & Ed & Ee & _ & _).
  change (body_rates (an (level V rho))) with (V3 0 0 0 : vec3 R) in Ev.
  cbn [repeat map2 g_sections flyer_grid] in Ev, Er. rewrite !at_section_0 in Ev.
  assert (Eu' : l_uinf s1 = V3 (-1) 0 0).
  { rewrite Eu. unfold unit_of. rewrite norm_back by auto. apply vec_eq; cbn [vdivs back vx vy vz]; rnum; field; lra. }
  destruct (process_control_ok flyer_grid (Some neutral) s1) as (s2 & H2).
  destruct (process_control_flow _ _ _ H2) as (F1 & F2 & F3 & F4). cbn in F4.
  assert (D : exists d1 d2 e1 e2, l_delta s2 = [d1; d2] /\ l_eff s2 = [e1; e2]).
  { apply pair_equal_spec in F4. destruct F4 as [-> ->]. cbn. eauto 10. }
  destruct D as (d1 & d2 & e1 & e2 & Ed2 & Ee2).
  destruct (Demo_LL.flyer_solves gauss_solver vzero (Some (level V rho)) (Some neutral) s s1 s2 V rho d1 d2 e1 e2 gauss_exact HV H1 H2)
    as (s' & res & K & R1 & _); try congruence.
  rewrite K. cbn [read_ref]. rewrite R1. cbn [fst snd rbind]. eauto.
Qed.

Section Plain3.
  Context {T : Type} {N : num_ops T} {S : Type}.
  Variable H : host T S.
  Variable E : menv T.
  Hypothesis same : forall a c s r a' s', h_solve H a c s = (r, a', s') -> a' = a.
  Lemma plain_trim_loop fuel : forall L m error f a de i, plain (trim_loop H E fuel L m error f a de i).
  Proof.
    induction fuel as [|fuel IH]; intros; cbn [trim_loop]; pla same; try apply IH; unfold slope_of, around_aero, around_ctl; pla same.
  Qed.
End Plain3.

(** *** pitch_trim compares forces and moments with one number, in whatever units *)
Lemma step_one E X L m error f a c : forces E X None a (Some c) = Ok f ->
  an a = dset (an a) "alpha" n0 -> c = dset c "elevator" n0 -> given a -> c <> [] ->
  Rabs (FL f - L) < error -> Rabs (MY f - m) < error ->
  exists w, pitch_trim (host_of E X None) E L m None error (MkW (Some a) (Some c) (init_mstate X) [] []) = (Ok (Some (0, 0)), w).
Proof.
  intros Kf Ka Kc Ga Gc KL Km. rewrite (trim_given (host_of E X None) E L m None error (MkW (Some a) (Some c) (init_mstate X) [] []) a c eq_refl Ga eq_refl Gc).
  unfold trim_body. change 102%nat with (Datatypes.S 101). generalize 101%nat. intros fuel. cbn [trim_loop]. unfold sbind at 1. unfold set_aero, smod. cbn [put_aero w_aero w_ctl w_model w_files w_log option_map].
  rewrite <- Ka. replace (MkAero (an a) (als a)) with a by (destruct a; reflexivity).
  unfold sbind at 1. unfold set_ctl, smod. cbn [put_ctl w_aero w_ctl w_model w_files w_log option_map]. unfold put_ctl, put_aero. cbn [w_aero w_ctl w_model w_files w_log option_map]. rewrite <- Kc.
  unfold sbind at 1. unfold do_solve. rewrite (aero_given_some (MkW (Some a) (Some c) (init_mstate X) [] []) a eq_refl Ga). unfold raw_solve. cbn [w_aero w_ctl w_model w_files w_log].
  unfold forces in Kf. destruct (h_solve (host_of E X None) a (Some c) (init_mstate X)) as [[r b] t]. cbn [fst] in Kf. subst r. cbv zeta.
  assert (C : (nltb (nabs (nsub (FL f) L)) error && nltb (nabs (nsub (MY f) m)) error)%bool = true).
  { rnum. apply andb_true_intro. split; apply Rltb_true; assumption. }
  rewrite C. cbn. eexists. reflexivity.
Qed.
Lemma not_there E X L m error f a c w : mm_props X = [] -> als a = None -> forces E X None (numbers (dset (an a) "alpha" 0)) (Some (dset c "elevator" 0)) = Ok f ->
  given a -> c <> [] -> error <= Rabs (FL f - L) ->
  pitch_trim (host_of E X None) E L m None error (MkW (Some a) (Some c) (init_mstate X) [] []) <> (Ok (Some (0, 0)), w).
Proof.
  intros Hp Ha Kf Ga Gc KL K.
  destruct (trim_whole (host_of E X None) E L m None error (MkW (Some a) (Some c) (init_mstate X) [] []) a c _ _ (host_keeps E X None) eq_refl Ga eq_refl Gc eq_refl K)
    as (P & _ & pre & k & a' & El & (f' & Sf & F1 & _) & _). cbn [w_model] in P.
  pose proof (wsame E X None Hp) as same.
  rewrite (trim_given (host_of E X None) E L m None error (MkW (Some a) (Some c) (init_mstate X) [] []) a c eq_refl Ga eq_refl Gc) in K.
  destruct (plain_trim_loop (host_of E X None) E same 102 L m error None n0 n0 0 (MkW (Some a) (Some c) (init_mstate X) [] [])) as [_ Q].
  { intros x Hx. cbn [w_aero] in Hx. injection Hx as <-. exact Ha. }
  unfold trim_body in K. rewrite K in Q. cbn [snd w_log app] in Q. specialize (Q _ eq_refl).
  change (init_mstate X) with (mu_after E X []) in P.
  assert (Hin : In k (w_log w)) by (rewrite El; apply in_or_app; right; now left).
  assert (Kn : forall (d : dict R) key x, dset d key x <> []).
  { intros d key x Q0. pose proof (dget_dset_same d key x) as Q1. rewrite Q0 in Q1. discriminate Q1. }
  pose proof (Kn (an a) "alpha" 0) as Kd. pose proof (Kn c "elevator" 0) as Kc.
  pose proof (solved_forces E X None Hp [] (w_log w) (w_model w) k _ _ _ P Q Hin Sf Kd Kc) as R0. rewrite Kf in R0. injection R0 as <-.
  revert F1. rnum. intros F1. apply Rltb_true in F1. lra.
Qed.

(** the flyer, its speed of 10 and lengths in units of half the size, trimmed to a lift half the
    threshold away from that of level flight *)
Lemma trim_units u : exists L f w,
  forces gauss_env flyer_machup None (level 10 1) (Some neutral) = Ok f /\ L = FL f - 1 / 2 /\
  pitch_trim (host_of gauss_env flyer_machup None) gauss_env L (MY f) None 1
     (MkW (Some (level 10 1)) (Some neutral) (init_mstate flyer_machup) [] []) = (Ok (Some (0, 0)), w) /\
  forall w', pitch_trim (host_of gauss_env (machup_in 2 u flyer_machup) None) gauss_env (1 * 2 ^ 2 * 2 ^ 2 * L) (1 * 2 ^ 2 * 2 ^ 2 * 2 * MY f) None 1
     (MkW (Some (level (2 * 10) 1)) (Some neutral) (init_mstate (machup_in 2 u flyer_machup)) [] []) <> (Ok (Some (0, 0)), w').
Proof.
  destruct (flyer_level 10 1 ltac:(lra)) as [f Kf].
  assert (G : given (level 10 1)) by (left; discriminate). assert (G' : given (level (2 * 10) 1)) by (left; discriminate).
  assert (Hc : neutral <> []) by discriminate.
  exists (FL f - 1 / 2), f.
  destruct (step_one gauss_env flyer_machup (FL f - 1 / 2) (MY f) 1 f (level 10 1) neutral Kf eq_refl eq_refl G Hc) as [w K].
  { replace (FL f - (FL f - 1 / 2)) with (1 / 2) by ring. rewrite Rabs_pos_eq; lra. }
  { replace (MY f - MY f) with 0 by ring. rewrite Rabs_R0; lra. }
  exists w. split; [exact Kf|]. split; [reflexivity|]. split; [exact K|]. intros w'.
  assert (St : state_in 1 2 2 (level 10 1) (level (2 * 10) 1)) by (apply level_in; lra).
  assert (Ge : full (level 10 1)) by (split; discriminate).
  assert (Hn : forall g, mm_grid flyer_machup = Some g -> g_num g = List.length (g_sections g)).
  { intros g Q. cbn [flyer_machup mm_grid] in Q. injection Q as <-. reflexivity. }
  assert (Kf' : forces gauss_env (machup_in 2 u flyer_machup) None (level (2 * 10) 1) (Some neutral) = Ok (fm_in 1 2 2 f)).
  { unfold forces in *.
    destruct (host_solve 1 2 2 ltac:(lra) ltac:(lra) u gauss_env flyer_machup gauss_exact Hn None I
       (level 10 1) (level (2 * 10) 1) (Some neutral) (init_mstate flyer_machup) (init_mstate (machup_in 2 u flyer_machup)) Ge St
       (init_in 1 2 2 u flyer_machup)) as [A _].
    cbn [option_map] in A. rewrite A, Kf. reflexivity. }
  apply (not_there gauss_env (machup_in 2 u flyer_machup) _ _ 1 (fm_in 1 2 2 f) (level (2 * 10) 1) neutral w' eq_refl eq_refl Kf' G' Hc).
  cbn [fm_in FL]. replace (1 * 2 ^ 2 * 2 ^ 2 * FL f - 1 * 2 ^ 2 * 2 ^ 2 * (FL f - 1 / 2)) with 8 by field. rewrite Rabs_pos_eq; lra.
Qed.

(** *** A propeller on its own *)
Lemma demo_plane_solves : exists E X f w,
  exact_solver (me_lsolve E) /\ make_machup E demo_plane = Ok X /\ List.length (mm_props X) = 1%nat /\
  mu_solve E X (Some [("J", PNum (/ 2))]) None (MkW (Some cruise) None (init_mstate X) [] []) = (Ok f, w) /\
  map (@p_n R) (m_ps (w_model w)) = [200].
Proof.
  destruct (demo_returns None vzero [1 / 2; 1 / 3] eq_refl) as (m & g & [pt rows] & ss' & M1 & M2 & M3 & _ & M5).
  set (E := MkME gauss_solver (with_memory m demo_env) gauss_inv (fun x => x) 100%nat).
  set (X := MkMU (T := R) None None [g] None vzero).
  assert (Em : make_machup E demo_plane = Ok X).
  { unfold make_machup. cbn [demo_plane a_wings rbind option_map a_props].
    replace (make_props (me_prop E) _ None) with (@Ok (list (pgeom R)) [g]) by (symmetry; exact M1). reflexivity. }
  exists E, X.
  destruct (solve_given E X (Some [("J", PNum (/ 2))]) None (MkW (Some cruise) None (init_mstate X) [] []) cruise eq_refl ltac:(left; discriminate))
    as (r & a' & s1 & P & A1 & A2 & A3 & A4 & _).
  unfold solve_parts in P. cbn [X mm_props mm_grid mm_cg w_ctl w_model init_mstate m_ll m_ps mm_points] in P.
  change (option_map (List.length (A:=vec3 R)) None) with (@None nat) in M3.
  change (me_prop E) with (with_memory m demo_env) in P. rewrite M3 in P.
  apply pair_equal_spec in P. destruct P as [P Ps]. apply pair_equal_spec in P. destruct P as [Pr _]. subst r. cbn [rbind snd] in A4.
  eexists _, _. split; [exact gauss_exact|]. split; [exact Em|]. split; [reflexivity|].
  split; [rewrite surjective_pairing at 1; rewrite A4; reflexivity|].
  rewrite A3, <- Ps. exact M5.
Qed.
