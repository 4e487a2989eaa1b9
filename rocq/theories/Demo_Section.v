(** Propellers whose blades are set one radian from the stream, for the examples of C70 and
    C53: their sections work at 0.7 radians. *)
From Coq Require Import Reals ZArith String Bool Arith Lia Lra List.
From Verif Require Import Base Num RVec Geometry Grid LLModel PropModel Spec_Grid Spec_LL Spec_Prop
     Spec_Blade Spec_Stl Spec_Section Prop_state LL_R LL_thm2 Prop_thm Prop_thm2 Prop_thm3 Prop_thm4 Prop_thm5 Prop_thm6
     Prop_thm7 Prop_thm8 Prop_thm10 Prop_thm11 Section_thm Demo_Blade.
Import ListNotations.
Local Open Scope string_scope.
Local Open Scope R_scope.

(** Pitch increment [x] radians, maximum lift [m], lift slope 2, chord 0.1517 times the
    radius at the hub. *)
Definition steep (x m : R) : prop R :=
  MkProp "main" (V3 1 0 0) 0 0 2 1 (1 / 5) 2 (VStr "CCW")
    [("type", VStr "default"); ("pitch_increment", VNum (x * 180 / PI))]
    [("type", VStr "linear"); ("root", VNum (1517 / 100000))] []
    [("blade", MkAirfoil "NACA0012" (VStr "root") 0 2 m 0 0 (1 / 50) 0 0)].
Definition steep_section (m : R) : section := MkSection 0 2 m (1 / 50) 0 0.
Lemma steep_make E u wp x m : x <> 0 -> exists g, make_pgeom E u wp (steep x m) = Ok g /\
  map (@z_zeta R) (pg_stations g) = [1 / 5; 999 / 1000] /\
  Forall (fun z => z_al0 z = 0 /\ z_cb z = 1517 / 100000) (pg_stations g).
Proof.
  intros Hx. assert (Hx' : x * 180 / PI <> 0).
  { pose proof PI_RGT_0. intros K. apply Hx. replace x with (x * 180 / PI * (PI / 180)) by (field; lra). rewrite K. ring. }
  unfold make_pgeom. change (zetas (steep x m)) with (zetas demo_prop). rewrite demo_zetas. unfold rbind.
  cbn [coefficients steep pr_airfoils map snd].
  unfold pitch, chord, make_motor, rbind, dlookup. cbn [steep pr_pitch pr_chord pr_motor pr_diameter].
  cbn [dget dgetd String.eqb Ascii.eqb Bool.eqb peq_str ptruthy pnum].
  replace (ntruthy (x * 180 / PI)) with true by (symmetry; unfold ntruthy; rnum; apply negb_true_iff; now apply Reqb_false).
  change (last_of [1 / 5; 999 / 1000]) with (Some (999 / 1000)).
  eexists. split; [reflexivity|]. cbn [pg_stations map]. split; [reflexivity|].
  constructor; [|constructor; [|constructor]]; unfold make_station, coef_of; cbn [z_al0 z_cb k_al0 af_alpha_L0];
    (split; [reflexivity|]); unfold linear_interp; rnum; lra.
Qed.

Lemma steep_stations E u wp x m g : x <> 0 -> make_pgeom E u wp (steep x m) = Ok g ->
  exists z0 z1, pg_stations g = [z0; z1] /\ z_zeta z0 = 1 / 5 /\
    forall z, In z [z0; z1] -> 1 / 5 <= z_zeta z /\ z_cb z = 1517 / 100000 /\ z_beta z = atan (1 / 2 / (PI * z_zeta z)) + x.
Proof.
  intros Hx Hg. destruct (steep_make E u wp x m Hx) as (g' & Hg' & H1 & H2). assert (g' = g) by congruence. subst g'.
  destruct (pg_stations g) as [|z0 [|z1 [|? ?]]] eqn:Es; try discriminate. cbn [map] in H1. injection H1 as Z0 Z1.
  exists z0, z1. split; [reflexivity|]. split; [exact Z0|].
  intros z Hin. rewrite Forall_forall in H2. destruct (H2 z Hin) as [A B].
  assert (Hz : 1 / 5 <= z_zeta z) by (destruct Hin as [<-|[<-|[]]]; rewrite ?Z0, ?Z1; lra).
  split; [exact Hz|]. split; [exact B|]. pose proof PI_gt_3 as H4.
  assert (Hatan : - (PI / 2) < atan (1 / 2 / (PI * z_zeta z)) < PI / 2) by (pose proof (atan_bound (1 / 2 / (PI * z_zeta z))); lra).
  rewrite (C54_lemma E u wp (steep x m) g z (atan (1 / 2 / (PI * z_zeta z))) (degrees (x * 180 / PI)) Hg).
  - rewrite A. unfold degrees. field. lra.
  - cbn; lra.
  - rewrite Es. exact Hin.
  - apply CA_default. reflexivity.
  - apply IN_some with (v := VNum (x * 180 / PI)); [reflexivity|now left].
  - lra.
  - rewrite A. lra.
  - rewrite A. lra.
Qed.
Lemma correct_out b e : 1 <= Rabs (b - e) -> correct_ei (T := R) b e (b - e) = 3 / 10 * sign (b - e).
Proof.
  intros H. unfold correct_ei. rewrite !nsign_sign. rnum.
  replace (Rltb (Rabs (b - e)) 1) with false by (symmetry; apply Rltb_false; lra).
  replace (Rdec 3 1) with (3 / 10) by (unfold Rdec; change (10 ^ 1)%Z with 10%Z; reflexivity).
  rewrite sign_scale by lra.
  assert (K : sign (sign (b - e)) = sign (b - e)).
  { destruct (sign_cases (b - e)) as [[_ ->]|[[_ ->]|[_ ->]]]; unfold sign; repeat destruct (Rlt_dec _ _); lra. }
  rewrite K. replace (Reqb _ _) with true by (symmetry; now apply Reqb_true). reflexivity.
Qed.
Lemma steep_run x m : 1 <= Rabs x -> exists mem g q s' b0 b1,
  let E := with_memory mem blade_env in
  make_pgeom E (Some "English") None (steep x m) = Ok g /\
  run_prop E (V3 0 0 0) (Some slow) (Some [("J", PNum (/ 2))]) g (init_pstate g) = (Ok q, s') /\
  prop_rows g s' = [b0; b1] /\ b_r b0 = 1 / 10 /\ b_chord b0 = 1517 / 100000 /\
  degrees (b_alpha b0) = x - 3 / 10 * sign x /\ degrees (b_alpha b1) = x - 3 / 10 * sign x /\
  degrees (b_induced b0) = 3 / 10 * sign x.
Proof.
  intros Hx. assert (Hx0 : x <> 0) by (intros ->; rewrite Rabs_R0 in Hx; lra).
  destruct (steep_make blade_env (Some "English") None x m Hx0) as (g & Hg & _).
  destruct (steep_stations _ _ _ _ _ _ Hx0 Hg) as (z0 & z1 & Es & Z0 & Hz). pose proof PI_gt_3 as Hpi.
  destruct (make_pgeom_data _ _ _ _ _ Hg) as (_ & _ & Ed & _ & En & _). cbn [steep pr_diameter pr_name] in Ed, En.
  assert (Hset : forall s : pstate R, p_Vinf s = 15 / 2 ->
     p_set_prop (pg_d g) (local_state (Some [("J", PNum (/ 2))]) (pg_name g)) s = (Ok tt, set_op 15 (/ 2) None None s)).
  { intros s HV. rewrite En, (set_by_J (pg_d g) (/ 2) (15 / 2) "main"); [|lra|lra|rewrite Ed; lra|discriminate|exact HV].
    do 2 f_equal. rewrite Ed. lra. }
  destruct (C52_core_any blade_env (Some "English") None (steep x m) g (V3 0 0 0) slow (Some [("J", PNum (/ 2))])
     (15 / 2) (1 / 400) 15 (/ 2) [] Hg) as (mem & q & s' & Hr & (H2 & H3) & H1 & H4 & H5 & H6); try reflexivity; auto.
  - left. cbn. unfold degrees. replace (0 * PI / 180) with 0 by field. rewrite cos_0. lra.
  - cbn. lra.
  - cbn. lia.
  - rewrite Es. discriminate.
  - rewrite Es. intros z Hin. destruct (Hz z Hin) as (K1 & K2 & _). split; lra.
  - assert (Hdiff : forall z, In z [z0; z1] -> z_beta z - Ratan2 (/ 2) (PI * z_zeta z) = x).
    { intros z Hin. destruct (Hz z Hin) as (K1 & _ & ->). rewrite atan2_pos by (apply Rmult_lt_0_compat; lra).
      replace (1 / 2) with (/ 2) by lra. ring. }
    assert (Hei : p_ei s' = [3 / 10 * sign x; 3 / 10 * sign x]).
    { rewrite H5, Es. cbn [map]. rewrite !correct_out by (rewrite Hdiff; [exact Hx|cbn; auto]).
      rewrite !Hdiff by (cbn; auto). reflexivity. }
    assert (Hal : p_alpha s' = [x - 3 / 10 * sign x; x - 3 / 10 * sign x]).
    { rewrite H6, H4, Hei, Es. cbn [map combine map2 fst snd]. rewrite !Hdiff by (cbn; auto). reflexivity. }
    destruct (solved_rows _ _ _ _ _ _ _ _ Hr) as (R1 & _ & _); [unfold sized, init_pstate; cbn [p_ei]; apply repeat_length|].
    rewrite Es in R1. cbn [map] in R1.
    destruct (prop_rows g s') as [|b0 [|b1 [|? ?]]] eqn:Er; try discriminate.
    exists mem, g, q, s', b0, b1. cbv zeta. split; [exact Hg|]. split; [exact Hr|]. split; [exact Er|].
    unfold prop_rows in Er. cbn [find_Vi p_ei p_einf p_alpha p_CL p_CD] in Er.
    pose proof (f_equal (fun l => nth_error l 0) Er) as N0. apply nth_blade_rows in N0.
    destruct N0 as (z & e1 & e2 & a & c1 & c2 & W1 & W2 & W3 & W4 & W5 & W6 & F1 & F2 & F3 & F4 & F5 & F6 & F7 & F8).
    pose proof (f_equal (fun l => nth_error l 1) Er) as N1. apply nth_blade_rows in N1.
    destruct N1 as (z' & e1' & e2' & a' & c1' & c2' & W1' & W2' & W3' & W4' & W5' & W6' & F1' & F2' & F3' & F4' & F5' & F6' & F7' & F8').
    rewrite Es in W1. rewrite Hal in W4, W4'. rewrite Hei in W3. cbn [nth_error] in W1, W3, W4, W4'.
    injection W1 as <-. injection W3 as <-. injection W4 as <-. injection W4' as <-.
    rewrite F1, F2, F5, F6, F6', !deg_rad.
    destruct (make_pgeom_stations _ _ _ _ _ Hg) as [Hst _]. rewrite Forall_forall in Hst.
    split; [rewrite (Hst z0), Ed, Z0 by (rewrite Es; now left); lra|].
    split; [destruct (Hz z0 (or_introl eq_refl)) as (_ & K & _); exact K|]. auto.
Qed.
