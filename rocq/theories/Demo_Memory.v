(** Examples for C83: solves that return although uninitialised memory never changes. *)
From Coq Require Import Reals ZArith String Bool Arith Lia Lra List.
From Verif Require Import Base Num RVec Geometry Grid LLModel PropModel Spec_Grid Spec_LL Spec_Prop
     Prop_state LL_R LL_thm2 Prop_thm Prop_thm2 Prop_thm3 Prop_thm4 Prop_thm5 Prop_thm6 Prop_thm7 MU Spec_MU MU_thm13
     Spec_Mirror Spec_MirrorProp Spec_Memory MU_memory Demo_Blade.
Import ListNotations.
Local Open Scope string_scope.
Local Open Scope R_scope.

Lemma find_ei_steady fuel k d bl ss einf : (0 < fuel)%nat -> ss <> [] ->
  Forall (fun s => ei_a (T := R) k d s <> 0) ss -> List.length einf = List.length ss ->
  exists m : nat -> R, find_ei fuel (fun _ => m) 0 k d bl ss einf (guess ss einf) = Ok (guessed ss einf, 2%nat).
Proof.
  intros Hfuel Hne Ha Hl. set (x0 := guess ss einf).
  assert (Hx0 : List.length x0 = List.length ss) by (unfold x0, guess; rewrite map2_min; lia).
  set (x1 := map (fun x => x * (1 + ndec 1 4) - ndec 1 4) x0).
  set (l1 := combine ss (combine einf x1)).
  set (y1 := ei_function (fun _ => 0) k d bl l1).
  set (l0 := combine ss (combine einf x0)).
  set (m0 := fun i => match nth_error l0 i, nth_error y1 i with
                      | Some q, Some y => (y + ei_b k bl (fst q) * tan (snd (snd q)) * sin (fst (snd q) + snd (snd q))) / ei_a k d (fst q)
                      | _, _ => 0 end).
  exists m0. unfold find_ei. cbv zeta. fold x0. rnum. change (map (fun x : R => x * (1 + Rdec 1 4) - Rdec 1 4) x0) with x1.
  fold l0. fold l1.
  assert (Ey : ei_function m0 k d bl l0 = ei_function m0 k d bl l1).
  { apply nth_error_ext. intros i. destruct (nth_error l0 i) as [q|] eqn:K.
    - assert (Q : forall (ss : list (station R)) einf i q, nth_error (combine ss (combine einf (guess ss einf))) i = Some q ->
             snd (snd q) = z_beta (fst q) - fst (snd q)).
      { clear. induction ss as [|s ss IH]; intros [|e einf] [|i] q H; cbn in H; try discriminate.
        - injection H as <-. reflexivity.
        - eapply IH; eauto. }
      assert (Q1 : forall (ss : list (station R)) (einf x : list R) i q, nth_error (combine ss (combine einf x)) i = Some q ->
             nth_error (combine ss (combine einf (map (fun x => x * (1 + ndec 1 4) - ndec 1 4) x))) i =
             Some (fst q, (fst (snd q), snd (snd q) * (1 + ndec 1 4) - ndec 1 4))).
      { clear. induction ss as [|s ss IH]; intros [|e einf] [|x xs] [|i] q H; cbn in H; try discriminate.
        - injection H as <-. reflexivity.
        - exact (IH _ _ _ _ H). }
      pose proof K as K0. apply Q1 in K0. fold x1 in K0. fold l1 in K0.
      pose proof K as Kq. unfold l0, x0 in Kq. apply Q in Kq.
      rewrite (ei_function_nth _ _ _ _ _ _ _ K), (ei_function_nth _ _ _ _ _ _ _ K0). cbn [fst snd].
      f_equal. replace (z_beta (fst q) - fst (snd q) - snd (snd q)) with 0 by lra. rewrite cl_at_zero.
      set (x' := snd (snd q) * (1 + ndec 1 4) - ndec 1 4) in *.
      destruct (cl_at (fst q) (z_beta (fst q) - fst (snd q) - x')) as [cl|] eqn:Kc.
      + unfold m0. rewrite K. unfold y1. rewrite (ei_function_nth _ _ _ _ _ _ _ K0). cbn [fst snd]. rewrite Kc.
        generalize (ei_residual k d bl (fst q) (fst (snd q)) x' cl). intros y. unfold ei_residual. rnum.
        assert (Hai : ei_a k d (fst q) <> 0).
        { rewrite Forall_forall in Ha. apply Ha. unfold l0 in K. apply nth_error_In in K. destruct q as [q1 q2].
          apply in_combine_l in K. exact K. }
        field. exact Hai.
      + assert (Ex : x' = snd (snd q)).
        { destruct (Req_dec (z_beta (fst q) - fst (snd q) - x') 0) as [H|H]; [lra|]. exfalso. exact (cl_at_assigned (fst q) _ H Kc). }
        rewrite Ex. reflexivity.
    - transitivity (@None R); [|symmetry]; apply nth_error_None; apply nth_error_None in K; rewrite ei_function_length; unfold l0, l1, x1 in *;
      rewrite !combine_length in *; rewrite ?map_length; lia. }
  rewrite Ey. destruct fuel as [|fuel]; [lia|]. cbn [ei_loop].
  destruct (esteps_still ss einf x1 (ei_function m0 k d bl l1) Hl) as [S1 S2].
  - unfold x1. rewrite map_length. lia.
  - rewrite ei_function_length. unfold l1, x1. rewrite !combine_length, map_length. lia.
  - unfold x0. rewrite S1, S2. reflexivity.
Qed.

Lemma steady_run E u wp (p : prop R) g cg a ps V rho n j :
  make_pgeom E u wp p = Ok g ->
  dget (an a) "V_mag" = Some V -> dget (an a) "rho" = Some rho ->
  cos (degrees (entry (an a) "alpha")) <> 0 \/ cos (degrees (entry (an a) "beta")) <> 0 ->
  (forall s, p_Vinf s = V ->
     p_set_prop (pg_d g) (local_state ps (pg_name g)) s = (Ok tt, set_op n j None None s)) ->
  pr_diameter p <> 0 -> (0 < pe_fuel E)%nat -> pr_blades p <> 0%nat ->
  pg_stations g <> [] ->
  (forall z, In z (pg_stations g) -> z_zeta z <> 0 /\ z_cb z <> 0) ->
  exists m q s', run_prop (with_memory (fun _ => m) E) cg (Some a) ps g (init_pstate g) = (Ok q, s').
Proof.
  intros Hg HV Hr Hs Hset Hd Hfuel Hk Hne Hz.
  destruct (make_pgeom_data _ _ _ _ _ Hg) as (E1 & E2 & E3 & E4 & E5 & E6 & _).
  set (ss := pg_stations g) in *. set (einf := advance_angles j ss).
  assert (Hl : List.length einf = List.length ss) by (unfold einf, advance_angles; apply map_length).
  assert (Hd' : pg_d g <> 0) by now rewrite E3.
  assert (Ha : Forall (fun s => ei_a (T := R) (pg_k g) (pg_d g) s <> 0) ss).
  { rewrite Forall_forall. intros z Hin. destruct (Hz z Hin) as (Z1 & Z2). unfold ei_a, chatb. rnum.
    assert (HkR : IZR (Z.of_nat (pg_k g)) <> 0).
    { rewrite E6. apply not_0_IZR. lia. }
    intros K. apply HkR.
    apply (Rmult_eq_reg_r (z_cb z / pg_d g / (8 * z_zeta z))).
    - rewrite Rmult_0_l, <- K. field. split; auto.
    - intros K2. apply Z2. apply (Rmult_eq_reg_r (/ pg_d g / (8 * z_zeta z))).
      + rewrite Rmult_0_l, <- K2. field. split; auto.
      + assert (/ (pg_d g * (8 * z_zeta z)) <> 0).
        { apply Rinv_neq_0_compat. apply Rmult_integral_contrapositive_currified; [exact Hd'|].
          apply Rmult_integral_contrapositive_currified; [lra|exact Z1]. }
        intros K3. apply H. rewrite <- K3. field. split; auto. }
  destruct (last_of ss) as [sl|] eqn:Kl.
  2:{ exfalso. unfold last_of in Kl. apply nth_error_None in Kl. destruct ss; [congruence|cbn in Kl; lia]. }
  destruct (find_ei_steady (pe_fuel E) (pg_k g) (pg_d g) (z_beta sl) ss einf Hfuel Hne Ha Hl) as (m & Hf).
  exists m.
  set (v := freestream 1 (entry (an a) "alpha") (entry (an a) "beta")).
  set (s1 := set_flow_p v rho V (init_pstate g)).
  set (s2 := set_op n j None None s1).
  assert (K1 : p_set_aero (Some a) (init_pstate g) = (Ok tt, s1)).
  { unfold p_set_aero, opt_truthy. replace (aero_truthy a) with true.
    - rewrite HV, Hr, !dgetd_entry. reflexivity.
    - symmetry. unfold aero_truthy. apply orb_true_iff. left. unfold dtruthy.
      destruct (an a) as [|e0 l0]; [discriminate HV|reflexivity]. }
  assert (K2 : p_set_prop (pg_d g) (local_state ps (pg_name g)) s1 = (Ok tt, s2)) by (apply Hset; reflexivity).
  assert (K3 : exists s3, find_coefficients (with_memory (fun _ => m) E) g s2 = (Ok tt, s3)).
  { unfold find_coefficients. cbv zeta. fold ss. rewrite Kl.
    change (p_J s2) with j. fold einf. change (p_clock s2) with 0%nat. change (pe_fuel (with_memory (fun _ => m) E)) with (pe_fuel E).
    change (pe_mem (with_memory (fun _ => m) E) (pg_name g)) with (fun _ : nat => m).
    assert (Eg : first_guess ss einf (p_ei s2) = guess ss einf).
    { unfold first_guess. change (p_ei s2) with (repeat (0 : R) (List.length ss)).
      replace (existsb ntruthy (repeat 0 (List.length ss))) with false; [reflexivity|].
      symmetry. generalize (List.length ss). intros k. induction k as [|k IH]; [reflexivity|]. cbn [repeat existsb].
      rewrite IH, orb_false_r. unfold ntruthy. rnum. replace (Reqb 0 0) with true by (symmetry; now apply Reqb_true).
      reflexivity. }
    rewrite Eg, Hf. eexists. reflexivity. }
  destruct K3 as (s3 & K3).
  pose proof (find_coefficients_core _ _ _ _ _ K3) as Kcore.
  set (s4 := find_Vi ss s3).
  assert (Hv : vdot (p_v s4) (p_v s4) = 1).
  { unfold core in Kcore. change (p_v s4) with (p_v s3).
    replace (p_v s3) with v by (transitivity (p_v s2); [reflexivity|congruence]).
    eapply airflow_1_unit. apply freestream_airflow; [lra|]. apply not_both_right. exact Hs. }
  assert (Hu : vdot (pg_forward g) (pg_forward g) = 1) by (rewrite E1; apply propeller_axis_unit).
  assert (K4 : exists q, resolve g cg s4 = Ok q).
  { unfold resolve. rewrite (vec_angle_ok _ _ Hu (vopp_unit _ Hv)). unfold rbind.
    destruct (acos _ =? n0)%num; eexists; reflexivity. }
  destruct K4 as (q & K4). exists q, (set_forces q s4).
  unfold run_prop, sbind. rewrite K1.
  rewrite K2. unfold p_calc_forces, sbind, sget. cbn [p_power p_throttle s2 set_op]. fold s2.
  rewrite K3. unfold smod, slift, sret. fold ss. fold s4. rewrite K4. reflexivity.
Qed.

(** a refused setting, and a good one, both with controls *)
Definition no_J : solve_args := MkArgs cruise (Some [("flap", 1)]) (Some [("J", PNum 0)]).
Definition half_J : solve_args := MkArgs cruise (Some [("flap", 1)]) (Some [("J", PNum (/ 2))]).
Lemma demo_made E g : make_pgeom (me_prop E) (Some "English") None demo_prop = Ok g ->
  make_machup E demo_plane = Ok (MkMU (T := R) None None [g] None vzero).
Proof.
  intros Hg. unfold make_machup. cbn [demo_plane a_wings rbind option_map a_props].
  unfold make_props. cbn [demo_plane a_props map snd rmap].
  change (get_units demo_plane) with (@Ok (option string) (Some "English")). unfold rbind.
  match goal with |- context [make_pgeom ?e ?u ?p ?q] => replace (make_pgeom e u p q) with (@Ok (pgeom R) g) end.
  reflexivity.
Qed.
Lemma one_propeller E X g l0 a c ps q s s' : X = MkMU (T := R) None None [g] None vzero -> given a ->
  run_prop (me_prop E) vzero (Some a) ps g s = (Ok q, s') ->
  exists f, fst (mu_solve E X ps None (MkW (Some a) c (MkM l0 [s]) [] [])) = Ok f.
Proof.
  intros -> Ha Hr. set (X := MkMU (T := R) None None [g] None vzero).
  destruct (solve_given E X ps None (MkW (Some a) c (MkM l0 [s]) [] []) a eq_refl Ha) as (r & b & t & P & _ & _ & _ & A4 & _).
  rewrite A4. cbn [w_ctl w_model] in P. unfold solve_parts in P. cbn [X mm_props mm_cg mm_points mm_grid m_ps m_ll] in P.
  destruct q as [[[F M] Th] l].
  assert (K : exists r, props_solve (me_prop E) vzero None (Some a) ps [g] [s] = (Ok (r, None), [s'])).
  { unfold props_solve, calc_forces, sbind. cbn [run_props]. rewrite Hr. cbn [last_of List.length pred nth_error]. eexists. reflexivity. }
  destruct K as [r0 K]. rewrite K in P. apply pair_equal_spec in P. destruct P as [P _]. apply pair_equal_spec in P. destruct P as [<- _].
  eexists. reflexivity.
Qed.
Lemma steady_demo : exists E X f,
  steady_memory (me_prop E) /\ make_machup E demo_plane = Ok X /\ List.length (mm_props X) = 1%nat /\
  (given (sa_aero half_J) /\ given_control (sa_ctl half_J)) /\
  Forall (fun q => same_start (sa_prop half_J) (fst q) (fst (snd q)) (snd (snd q)))
    (combine (mm_props X) (combine (m_ps (mu_after E X []))
       (m_ps (mu_after E X [MkMuCall vzero (sa_prop no_J) (sa_aero no_J) (sa_ctl no_J)])))) /\
  solve_all E X (mu_after E X []) [no_J] = [Err RuntimeError] /\
  solve_all E X (mu_after E X []) [half_J] = [Ok f].
Proof.
  destruct (demo_make demo_env (Some "English") None) as (g & Hg & Hl & _).
  pose proof (demo_stations _ _ _ _ Hg) as Hz.
  destruct (make_pgeom_data _ _ _ _ _ Hg) as (_ & _ & Ed & _ & En & _). cbn [demo_prop pr_diameter pr_name] in Ed, En.
  assert (Hset : forall s : pstate R, p_Vinf s = 100 ->
     p_set_prop (pg_d g) (local_state (Some [("J", PNum (/ 2))]) (pg_name g)) s = (Ok tt, set_op (100 / (pg_d g * / 2)) (/ 2) None None s)).
  { rewrite En. apply set_by_J; [lra|lra|rewrite Ed; lra|discriminate]. }
  destruct (steady_run demo_env (Some "English") None demo_prop g vzero cruise (Some [("J", PNum (/ 2))]) 100 (1 / 400) _ _ Hg
     eq_refl eq_refl ltac:(left; cbn; unfold degrees; replace (0 * PI / 180) with 0 by field; rewrite cos_0; lra) Hset) as (m & q & s' & Hr).
  - cbn. lra.
  - cbn. lia.
  - cbn. lia.
  - intros K. rewrite K in Hl. discriminate.
  - intros z Hin. destruct (Hz z Hin) as (Z1 & Z2 & _). split; [lra|exact Z2].
  - set (E := MkME (T := R) (fun _ _ => None) (with_memory (fun _ => m) demo_env) (fun _ => None) (fun x => x) 100%nat).
    assert (Hm : make_machup E demo_plane = Ok (MkMU None None [g] None vzero)) by (apply demo_made; exact Hg).
    set (X := MkMU (T := R) None None [g] None vzero) in *.
    assert (Hc : given cruise) by (left; discriminate).
    destruct (one_propeller E X g (m_ll (init_mstate X)) cruise (Some [("flap", 1)]) (Some [("J", PNum (/ 2))]) q (init_pstate g) s' eq_refl Hc Hr) as [f Hf].
    exists E, X, f. split; [intros name a b i; reflexivity|]. split; [exact Hm|]. split; [reflexivity|].
    split; [split; [exact Hc|exists [("flap", 1)]; split; [reflexivity|discriminate]]|].
    assert (Rf : exists t, run_prop (me_prop E) vzero (Some cruise) (sa_prop no_J) g (init_pstate g) = (Err RuntimeError, t) /\
      p_ei t = p_ei (init_pstate g) /\ p_n t = p_n (init_pstate g)).
    { pose proof (C50_refused (me_prop E) vzero cruise (sa_prop no_J) g (init_pstate g) 100 (1 / 400) [("J", PNum 0)] RuntimeError eq_refl eq_refl) as K.
      rewrite En in K. specialize (K eq_refl ltac:(left; split; [reflexivity|split; [reflexivity|exists 0; split; [reflexivity|left; reflexivity]]])).
      unfold run_prop in *. destruct (flow_set cruise (init_pstate g)) as (t & F & _); [split; discriminate|].
      unfold sbind in *. unfold p_set_aero, opt_truthy, aero_truthy in *. cbn [cruise an als dtruthy orb dget String.eqb Ascii.eqb Bool.eqb] in *.
      unfold smod in *. rewrite En in *. change (local_state (sa_prop no_J) "main") with (Some (PDict [("J", PNum 0)])) in *.
      unfold p_set_prop in *. cbn [dget String.eqb Ascii.eqb Bool.eqb] in *. unfold sbind, smod, slift, vnum, sget in *.
      replace (0 =? n0)%num with true by (symmetry; rnum; now apply Reqb_true). cbn [orb].
      eexists. split; [reflexivity|]. split; reflexivity. }
    destruct Rf as (t & R1 & R2 & R3). split; [|split].
    + assert (Em : m_ps (mu_after E X [MkMuCall vzero (sa_prop no_J) (sa_aero no_J) (sa_ctl no_J)]) = [t]).
      { unfold mu_after. cbn [fold_left mc_cg mc_ps mc_aero mc_ctl]. unfold host_of, h_solve, solve_parts. cbn [X with_cg mm_props mm_cg mm_points mm_grid].
        assert (K : props_solve (me_prop E) vzero None (Some (sa_aero no_J)) (sa_prop no_J) [g] (m_ps (init_mstate X)) = (Err RuntimeError, [t])).
        { unfold props_solve, calc_forces, sbind. unfold init_mstate. cbn [X mm_props m_ps map run_props]. change (sa_aero no_J) with cruise. rewrite R1. reflexivity. }
        rewrite K. reflexivity. }
      rewrite Em. unfold mu_after, init_mstate. cbn [fold_left X mm_props mm_grid m_ps map combine]. constructor; [|constructor].
      cbn [fst snd]. split; [exact R2|]. right. exact R3.
    + unfold mu_after. cbn [fold_left]. cbn [solve_all].
      pose proof (first_raises E X g [] (init_pstate g) [] (m_ll (init_mstate X)) (sa_prop no_J) (sa_aero no_J) (sa_ctl no_J) RuntimeError t eq_refl Hc R1) as K.
      change (MkM (m_ll (init_mstate X)) [init_pstate g]) with (init_mstate X) in K.
      destruct (mu_solve E X (sa_prop no_J) None (MkW (Some (sa_aero no_J)) (sa_ctl no_J) (init_mstate X) [] [])) as [r w]. destruct K as [-> _]. reflexivity.
    + unfold mu_after. cbn [fold_left]. cbn [solve_all]. change (MkM (m_ll (init_mstate X)) [init_pstate g]) with (init_mstate X) in Hf.
      change (sa_prop half_J) with (Some [("J", PNum (/ 2))]). change (sa_aero half_J) with cruise. change (sa_ctl half_J) with (Some [("flap", 1)]).
      destruct (mu_solve _ _ _ _ _) as [r w]. cbn [fst] in Hf. now subst r.
Qed.
(** a new object returns for a brake power, one that was once asked for rate 0 does not *)
Lemma zero_rate_demo : exists E X P f, make_machup E demo_plane = Ok X /\
  let asked := MkArgs slow None (Some [("brake_power", PNum P)]) in
  let stop := MkArgs slow None (Some [("rot_per_sec", PNum 0)]) in
  solve_all E X (init_mstate X) [asked] = [Ok f] /\
  solve_all E X (init_mstate X) [stop; asked; asked] = [Err ZeroDivisionError; Err ZeroDivisionError; Err ZeroDivisionError].
Proof.
  destruct power_run as (m & g & P & q & s' & Hg & Hr & _).
  set (E := MkME (T := R) (fun _ _ => None) (with_memory m blade_env) (fun _ => None) (fun x => x) 100%nat).
  assert (Hm : make_machup E demo_plane = Ok (MkMU None None [g] None vzero)) by (apply demo_made; exact Hg).
  set (X := MkMU (T := R) None None [g] None vzero) in *.
  destruct (make_pgeom_data _ _ _ _ _ Hg) as (_ & _ & _ & _ & En & _). cbn [demo_prop pr_name] in En.
  assert (Hc : given slow) by (left; discriminate).
  destruct (one_propeller E X g (m_ll (init_mstate X)) slow None (Some [("brake_power", PNum P)]) q (init_pstate g) s' eq_refl Hc Hr) as [f Hf].
  exists E, X, P, f. split; [exact Hm|]. cbv zeta. split.
  - cbn [solve_all sa_prop sa_aero sa_ctl]. change (MkM (m_ll (init_mstate X)) [init_pstate g]) with (init_mstate X) in Hf.
    destruct (mu_solve _ _ _ _ _) as [r w]. cbn [fst] in Hf. now subst r.
  - assert (Ff : full_flow slow) by (split; discriminate).
    pose proof (zero_rate_sticks E X g [] [] (MkArgs slow None (Some [("rot_per_sec", PNum 0)]))
      [MkArgs slow None (Some [("brake_power", PNum P)]); MkArgs slow None (Some [("brake_power", PNum P)])] eq_refl Ff) as K.
    cbn [sa_prop sa_aero] in K. rewrite En in K. apply K.
    + exists [("rot_per_sec", PNum 0)]. repeat split.
    + assert (B : full_flow slow /\ (exists l, setting_of (Some [("brake_power", PNum P)]) "main" = Some (PDict l) /\ by_power (pg_motor g <> None) l)).
      { split; [exact Ff|]. exists [("brake_power", PNum P)]. split; [reflexivity|]. split; [reflexivity|]. split; [reflexivity|]. left. exists P. reflexivity. }
      constructor; [exact B|]. constructor; [exact B|constructor].
Qed.
