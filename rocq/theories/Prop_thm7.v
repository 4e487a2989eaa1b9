(** Propeller theorems, part 7: default setting, and a returning solve of a concrete
    airplane with a propeller. *)
From Coq Require Import Reals ZArith String Bool Arith Lia Lra List.
From Verif Require Import Base Num RVec Geometry Grid LLModel PropModel Spec_Grid Spec_LL Spec_Prop
     Prop_state LL_R LL_thm2 Prop_thm Prop_thm2 Prop_thm3 Prop_thm4 Prop_thm5 Prop_thm6.
Import ListNotations.
Local Open Scope string_scope.
Local Open Scope R_scope.

(** *** C49: no setting means J = 1/2 *)
Lemma p_set_prop_default d (s : pstate R) : d <> 0 -> p_Vinf s <> 0 ->
  p_set_prop d None s = p_set_prop d (Some (PDict [("J", PNum (/ 2))])) s.
Proof.
  intros Hd HV. unfold p_set_prop, default_op, sbind, smod, sget, slift. rewrite half.
  cbn [dget String.eqb Ascii.eqb Bool.eqb]. cbn [p_Vinf set_op vnum].
  unfold pydiv. rnum. replace (Reqb (/ 2) 0) with false by (symmetry; apply Reqb_false; lra).
  replace (Reqb (p_Vinf s) 0) with false by (symmetry; now apply Reqb_false). cbn [orb].
  replace (Reqb (d * / 2) 0) with false; [reflexivity|].
  symmetry. apply Reqb_false. apply Rmult_integral_contrapositive_currified; [exact Hd|lra].
Qed.
Lemma run_prop_default E cg a g s V rho : dget (an a) "V_mag" = Some V -> dget (an a) "rho" = Some rho -> V <> 0 ->
  pg_d g <> 0 -> pg_name g <> "J" ->
  run_prop (T := R) E cg (Some a) None g s = run_prop E cg (Some a) (Some [("J", PNum (/ 2))]) g s.
Proof.
  intros HV Hr HV0 Hd HJ. unfold run_prop, sbind.
  destruct (p_set_aero (Some a) s) as [o s1] eqn:K1.
  assert (HK : p_Vinf s1 = V).
  { unfold p_set_aero, opt_truthy in K1. replace (aero_truthy a) with true in K1.
    - rewrite HV, Hr in K1. unfold smod in K1. apply pair_equal_spec in K1. destruct K1 as [<- <-]. reflexivity.
    - symmetry. unfold aero_truthy. apply orb_true_iff. left. unfold dtruthy.
      destruct (an a) as [|e0 l0]; [discriminate HV|reflexivity]. }
  destruct o as [[]|e]; [|reflexivity].
  assert (L : local_state (Some [("J", PNum (/ 2))]) (pg_name g) = Some (PDict [("J", PNum (/ 2))])).
  { apply local_own; [discriminate|]. cbn [dget]. destruct (String.eqb_spec (pg_name g) "J"); [contradiction|reflexivity]. }
  rewrite L. cbn [local_state]. rewrite p_set_prop_default; [reflexivity|exact Hd|now rewrite HK].
Qed.
Lemma run_props_ext (T : Type) (N : num_ops T) E cg aero ps ps' gs :
  (forall g, In g gs -> forall s, run_prop (N := N) E cg aero ps g s = run_prop E cg aero ps' g s) ->
  forall ss, run_props (N := N) E cg aero ps gs ss = run_props E cg aero ps' gs ss.
Proof.
  induction gs as [|g gs IH]; intros H ss; [reflexivity|].
  destruct ss as [|s ss]; [reflexivity|]. cbn [run_props].
  rewrite (H g (or_introl eq_refl) s), (IH (fun g' Hg => H g' (or_intror Hg)) ss). reflexivity.
Qed.
Lemma C49_default_lemma E cg n a gs ss V rho :
  dget (an a) "V_mag" = Some V -> dget (an a) "rho" = Some rho -> V <> 0 ->
  (forall g, In g gs -> pg_d g <> 0 /\ pg_name g <> "J") ->
  props_solve (T := R) E cg n (Some a) None gs ss = props_solve E cg n (Some a) (Some [("J", PNum (/ 2))]) gs ss.
Proof.
  intros HV Hr HV0 Hg. unfold props_solve, calc_forces, sbind.
  rewrite (run_props_ext R Rnum E cg (Some a) None (Some [("J", PNum (/ 2))]) gs); [reflexivity|].
  intros g Hin s. destruct (Hg g Hin). eapply run_prop_default; eauto.
Qed.

(** *** A solve that returns *)
Definition demo_plane : airplane R :=
  MkAirplane "tractor" [] [] [("main", demo_prop)] (V3 0 0 0) None None None (Some (Some "English")).
Definition cruise : aero_state R := MkAero [("V_mag", 100); ("rho", 1 / 400); ("alpha", 0)] None.
Lemma atan2_pos y x : 0 < x -> Ratan2 y x = atan (y / x).
Proof. intros H. unfold Ratan2. destruct (Rlt_dec 0 x); [reflexivity|lra]. Qed.
Lemma demo_returns (pts : option (list (vec3 R))) cg c : List.length c = 2%nat ->
  exists m g r ss',
    make_props (with_memory m demo_env) demo_plane pts = Ok [g] /\
    make_pgeom (with_memory m demo_env) (Some "English") pts demo_prop = Ok g /\
    props_solve (with_memory m demo_env) cg (option_map (@List.length _) pts) (Some cruise)
      (Some [("J", PNum (/ 2))]) [g] (map init_pstate [g]) = (Ok r, ss') /\
    map (@p_CL R) ss' = [c] /\ map (@p_n R) ss' = [200].
Proof.
  intros Hc. destruct (demo_make demo_env (Some "English") pts) as (g & Hg & Hl & _).
  pose proof (demo_stations _ _ _ _ Hg) as Hz. pose proof PI_gt_3 as Hpi.
  destruct (C52_lemma demo_env (Some "English") pts demo_prop g cg cruise 100 (1 / 400) (/ 2) c Hg) as (m & q & s' & Hr & H1 & H2 & H3);
  try reflexivity.
  - left. cbn. unfold degrees. replace (0 * PI / 180) with 0 by field. rewrite cos_0. lra.
  - lra.
  - lra.
  - cbn. lra.
  - cbn. lia.
  - cbn. lia.
  - intros K. rewrite K in Hl. discriminate.
  - discriminate.
  - intros z Hin. destruct (Hz z Hin) as (Z1 & Z2 & Z3). split; [lra|]. split; [exact Z2|].
    rewrite Z3, atan2_pos by (apply Rmult_lt_0_compat; lra).
    replace (1 / 2) with (/ 2) by lra. unfold Rabs. destruct (Rcase_abs _); lra.
  - lia.
  - assert (Hmp : make_props (with_memory m demo_env) demo_plane pts = Ok [g]).
    { unfold make_props. cbn [demo_plane a_props map snd rmap].
      change (get_units demo_plane) with (@Ok (option string) (Some "English")). unfold rbind.
      assert (Hg' : make_pgeom (with_memory m demo_env) (Some "English") pts demo_prop = Ok g) by exact Hg.
      match goal with |- context [make_pgeom ?e ?u ?p ?q] => replace (make_pgeom e u p q) with (@Ok (pgeom R) g) end.
      reflexivity. }
    destruct q as [[[F M] Th] l].
    assert (Hps : exists r, props_solve (with_memory m demo_env) cg (option_map (@List.length _) pts) (Some cruise)
      (Some [("J", PNum (/ 2))]) [g] (map init_pstate [g]) = (Ok r, [s'])).
    { unfold props_solve, calc_forces, sbind. cbn [map run_props]. rewrite Hr.
      cbn [last_of List.length pred nth_error].
      destruct pts as [pts|]; cbn [option_map]; [|eexists; reflexivity].
      unfold velocity_field. cbn [opt_truthy aero_truthy cruise dtruthy an orb]. 
      cbn [dget String.eqb Ascii.eqb Bool.eqb]. unfold slift, sget, sret. eexists. reflexivity. }
    destruct Hps as (r & Hps). exists m, g, r, [s']. split; [exact Hmp|].
    split; [exact Hg|]. split; [exact Hps|]. cbn [map]. rewrite H1, H2. cbn [demo_prop pr_diameter].
    split; [reflexivity|]. f_equal. lra.
Qed.

(** J = 0 together with a rotation rate *)
Lemma demo_zero_J : exists m g q s',
  make_pgeom (with_memory m demo_env) (Some "English") None demo_prop = Ok g /\
  run_prop (with_memory m demo_env) (V3 0 0 0) (Some cruise) (Some [("J", PNum 0); ("rot_per_sec", PNum 50)]) g
    (init_pstate g) = (Ok q, s') /\
  p_n s' = 50 /\ p_J s' <> p_Vinf s' / (p_n s' * pg_d g).
Proof.
  destruct (demo_make demo_env (Some "English") None) as (g & Hg & Hl & _).
  pose proof (demo_stations _ _ _ _ Hg) as Hz. pose proof PI_gt_3 as Hpi.
  destruct (demo_make demo_env (Some "English") None) as (g' & Hg' & _ & Hz').
  assert (g' = g) by congruence. subst g'.
  destruct (make_pgeom_data _ _ _ _ _ Hg) as (_ & _ & E3 & _ & E5 & _).
  destruct (C52_core demo_env (Some "English") None demo_prop g (V3 0 0 0) cruise
              (Some [("J", PNum 0); ("rot_per_sec", PNum 50)]) 100 (1 / 400) 50 0 [0; 0] Hg)
    as (m & q & s' & Hr & H1 & H2 & H3); try reflexivity.
  - left. cbn. unfold degrees. replace (0 * PI / 180) with 0 by field. rewrite cos_0. lra.
  - intros s _. rewrite E5. apply set_by_J_zero; discriminate.
  - cbn. lra.
  - cbn. lia.
  - cbn. lia.
  - intros K. rewrite K in Hl. discriminate.
  - intros z Hin. destruct (Hz z Hin) as (Z1 & Z2 & Z3). split; [lra|]. split; [exact Z2|].
    rewrite Z3, atan2_pos by (apply Rmult_lt_0_compat; lra).
    replace (0 / (PI * z_zeta z)) with 0 by (field; lra). rewrite atan_0.
    assert (Hb : 0 < atan (1 / 2 / (PI * z_zeta z)) < PI / 4).
    { destruct (Hz' z Hin) as (H1 & _).
      assert (Hp : 1 / 5 <= z_zeta z <= 999 / 1000) by (destruct H1 as [->| ->]; lra).
      assert (0 < 1 / 2 / (PI * z_zeta z) < 1).
      { split; [apply Rdiv_lt_0_compat; nra|]. apply (Rmult_lt_reg_r (PI * z_zeta z)); [nra|].
        unfold Rdiv. rewrite Rmult_assoc, Rinv_l by nra. nra. }
      rewrite <- atan_0, <- atan_1. split; apply atan_increasing; lra. }
    destruct (PI_ineq 1) as [_ H4]. cbn in H4. unfold tg_alt, PI_tg in H4. cbn in H4.
    unfold Rabs. destruct (Rcase_abs _); lra.
  - now rewrite Hl.
  - exists m, g, q, s'. split; [exact Hg|]. split; [exact Hr|]. split; [exact H2|].
    destruct (run_prop_flow _ _ _ _ _ _ _ _ 100 Hr eq_refl) as (rho & _ & Hf).
    assert (EV : p_Vinf s' = 100) by (unfold flow_of in Hf; congruence).
    rewrite H3, EV, H2, E3. cbn [demo_prop pr_diameter]. lra.
Qed.
