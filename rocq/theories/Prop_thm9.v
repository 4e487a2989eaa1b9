(** Propeller theorems over the real numbers, part 9: rotation rate from brake power or
    from the throttle of an electric motor. *)
From Coq Require Import Reals ZArith String Bool Arith Lia Lra List.
From Verif Require Import Base Num RVec Geometry Grid LLModel PropModel Spec_Grid Spec_LL Spec_Prop
     Spec_Blade Prop_state LL_R LL_thm2 Prop_thm Prop_thm2 Prop_thm3 Prop_thm4 Prop_thm5 Prop_thm6 Prop_thm7 Prop_thm8.
Import ListNotations.
Local Open Scope string_scope.
Local Open Scope R_scope.

(** *** The secant search *)
Section Secant.
  Variables (f : R -> st (pstate R) R) (S : R -> pstate R -> Prop) (Q : pstate R -> Prop) (G : R -> pstate R -> R).
  Hypothesis Hf : forall x s y s', f x s = (Ok y, s') -> Q s -> Q s' /\ S x s' /\ y = G x s'.
  Definition found (n : R) (s' : pstate R) : Prop :=
    Q s' /\ ((S n s' /\ Rabs (G n s') < / 10 ^ 14) \/
    exists m m0 s0, Rabs (n - m) < / 10 ^ 14 /\ S m s' /\ S m0 s0 /\
      n = m - G m s' * (m - m0) / (G m s' - G m0 s0)).
  Lemma rate_loop_found fuel : forall x0 y0 x1 y1 s n s',
    rate_loop fuel f x0 y0 x1 y1 s = (Ok n, s') -> Q s ->
    (exists s0, S x0 s0 /\ y0 = G x0 s0) -> S x1 s -> y1 = G x1 s -> found n s'.
  Proof.
    induction fuel as [|fuel IH]; intros x0 y0 x1 y1 s n s' H Hq H0 H1 E1; cbn [rate_loop] in H; [discriminate|].
    destruct (nltb _ _) eqn:K.
    - unfold sret in H. apply pair_equal_spec in H. destruct H as [H2 H3]. injection H2 as H2. subst s'.
      destruct H0 as (s0 & S0 & E0). split; [exact Hq|]. right. exists x1, x0, s0. rnum.
      rewrite rate_error_small in K. apply Rltb_true in K. rewrite H2 in K.
      split; [exact K|]. split; [exact H1|]. split; [exact S0|]. rewrite <- E1, <- E0. now symmetry.
    - unfold sbind in H. destruct (f _ s) as [[y2|e] s1] eqn:K2; [|discriminate].
      destruct (Hf _ _ _ _ K2 Hq) as (F1 & F2 & F3).
      apply IH in H; auto. exists s. auto.
  Qed.
  Lemma find_rate_found fuel s n s' : find_rate fuel f s = (Ok n, s') -> Q s -> found n s'.
  Proof.
    intros H Hq. unfold find_rate, sbind, sget in H.
    destruct (f (p_n s) s) as [[y0|e] s1] eqn:K0; [|discriminate].
    destruct (Hf _ _ _ _ K0 Hq) as (F1 & F2 & F3).
    destruct (nltb _ _) eqn:K.
    - unfold sret in H. apply pair_equal_spec in H. destruct H as [H2 H3]. injection H2 as H2. subst s'.
      split; [exact F1|]. left. rnum. rewrite rate_error_small in K. apply Rltb_true in K. subst n.
      rewrite <- F3. auto.
    - destruct (f _ s1) as [[y1|e] s2] eqn:K1; [|discriminate].
      destruct (Hf _ _ _ _ K1 F1) as (G1 & G2 & G3).
      eapply rate_loop_found; eauto.
  Qed.
End Secant.

(** *** Shaft torque in terms of the coefficient *)
Lemma shaft_torque_Cl E u wp (p : prop R) g sa sb m s :
  make_pgeom E u wp p = Ok g -> 0 < pr_diameter p -> quadrature (pe_simps E) ->
  find_coefficients E g sa = (Ok tt, sb) -> sized g sa -> blades s = blades sb ->
  forall rho, shaft_torque E g rho m s = rho * m ^ 2 * pg_d g ^ 5 * p_Cl s.
Proof.
  intros Hg Hd Hq A1 A2 A3 rho.
  destruct (make_pgeom_data _ _ _ _ _ Hg) as (_ & _ & Ed & _).
  destruct (make_pgeom_stations _ _ _ _ _ Hg) as [Hst Hz].
  destruct (find_coefficients_lists _ _ _ _ A1 A2) as (cla & _ & L1 & L2 & L3 & L4 & L5 & L6 & _ & C1 & C2 & _).
  unfold blades in A3.
  assert (B : p_ei s = p_ei sb /\ p_einf s = p_einf sb /\ p_alpha s = p_alpha sb /\ p_CL s = p_CL sb /\
              p_CD s = p_CD sb /\ p_Cl s = p_Cl sb) by (repeat split; congruence).
  destruct B as (B1 & B2 & B3 & B4 & B5 & B7).
  rewrite <- B1 in *. rewrite <- B2 in *. rewrite <- B3 in *. rewrite <- B4 in *. rewrite <- B5 in *.
  rewrite B7, C2. unfold shaft_torque.
  unfold prop_rows. cbn [find_Vi p_ei p_einf p_alpha p_CL p_CD p_Vi p_Vxi p_Vti].
  set (vi := map2 _ _ (p_ei s)).
  assert (V1 : List.length vi = List.length (pg_stations g)) by (unfold vi; rewrite map2_min, combine_length; lia).
  set (vx := map2 _ vi _). set (vt := map2 _ vi _).
  assert (V2 : List.length vx = List.length (pg_stations g)) by (unfold vx; rewrite !map2_min; lia).
  assert (V3 : List.length vt = List.length (pg_stations g)) by (unfold vt; rewrite !map2_min; lia).
  rewrite Ed in *.
  destruct (thrust_rows (pg_name g) (pg_k g) (pr_diameter p) rho m) with
    (ss := pg_stations g) (einf := p_einf s) (ei := p_ei s) (al := p_alpha s) (cl := p_CL s) (cla := cla)
    (cd := p_CD s) (vi := vi) (vx := vx) (vt := vt) as (R0 & R1 & R2 & R3); auto; [lra|].
  change (fun b : blade_row => b_r b) with (@b_r R).
  rewrite R1, R3. rewrite !Hq by (lra || rewrite !map_length; exact R0). field.
Qed.

Definition solved_flow (E : penv R) (g : pgeom R) (fl : vec3 R * R * R) (x : R) (s : pstate R) : Prop :=
  solved_at E g x s /\ flow_of s = fl.
Lemma solved_trial E g v rho V x s s' : solved_flow E g (v, rho, V) x s -> blades s' = blades s -> trial E g V x s'.
Proof.
  intros [(sa & F & Hs & En & EJ) Hfl] Hb. exists sa, s. split; [exact F|]. split; [exact Hs|]. split; [exact En|].
  pose proof (find_coefficients_core _ _ _ _ _ F) as Ec. unfold core in Ec. unfold flow_of in Hfl.
  assert (EV : p_Vinf sa = V) by congruence. split; [exact EV|]. split; [|exact Hb]. rewrite EJ, EV. reflexivity.
Qed.
Lemma solve_at_rate_flow E g x (s s' : pstate R) r : solve_at_rate E g x s = (r, s') -> flow_of s' = flow_of s.
Proof. intros H. apply solve_at_rate_core in H. unfold core in H. unfold flow_of. congruence. Qed.

Section Power.
  Variables (E : penv R) (u : option string) (wp : option (list (vec3 R))) (p : prop R) (g : pgeom R).
  Hypothesis Hg : make_pgeom E u wp p = Ok g.
  Hypothesis Hd : 0 < pr_diameter p.
  Hypothesis Hq : quadrature (pe_simps E).
  Variables (v : vec3 R) (rho V : R).
  Definition ready (s : pstate R) : Prop := sized g s /\ flow_of s = (v, rho, V).
  Lemma power_step pw x s y s' : zero_power_difference E g pw x s = (Ok y, s') -> ready s ->
    ready s' /\ solved_flow E g (v, rho, V) x s' /\ y = shaft_power E g rho x s' - pw.
  Proof.
    intros H [Hs Hfl]. pose proof (zero_power_solved _ _ _ _ _ _ _ H Hs) as HS.
    pose proof (solved_sized _ _ _ _ HS) as Hs'.
    unfold zero_power_difference, sbind, sget, sret in H.
    destruct (solve_at_rate E g x s) as [[[]|e] s1] eqn:K; [|discriminate].
    pose proof (solve_at_rate_flow _ _ _ _ _ _ K) as F1. pose proof (solve_at_rate_core _ _ _ _ _ _ K) as F2.
    apply pair_equal_spec in H. destruct H as [H1 H2]. subst s1. injection H1 as H1.
    rewrite Hfl in F1. split; [split; assumption|]. split; [split; assumption|].
    destruct HS as (sa & A1 & A2 & _).
    unfold shaft_power. rewrite (shaft_torque_Cl _ _ _ _ _ _ _ x s' Hg Hd Hq A1 A2 eq_refl rho).
    destruct (find_coefficients_lists _ _ _ _ A1 A2) as (cla & _ & _ & _ & _ & _ & _ & _ & _ & _ & _ & C3 & _).
    rewrite <- H1, C3.
    unfold core in F2. unfold flow_of in F1.
    replace (p_n s') with x by congruence. replace (p_rho s') with rho by congruence. rnum. ring.
  Qed.
  Lemma torque_step mo th x s y s' : zero_torque_difference E g mo th x s = (Ok y, s') -> ready s ->
    ready s' /\ solved_flow E g (v, rho, V) x s' /\
    exists tq, motor_torque g mo th x = Ok tq /\ y = shaft_torque E g rho x s' - tq.
  Proof.
    intros H [Hs Hfl]. pose proof (zero_torque_solved _ _ _ _ _ _ _ _ H Hs) as HS.
    pose proof (solved_sized _ _ _ _ HS) as Hs'.
    unfold zero_torque_difference, sbind, sget, sret, slift in H.
    destruct (solve_at_rate E g x s) as [[[]|e] s1] eqn:K; [|discriminate].
    pose proof (solve_at_rate_flow _ _ _ _ _ _ K) as F1. pose proof (solve_at_rate_core _ _ _ _ _ _ K) as F2.
    destruct (motor_torque g mo th (p_n s1)) as [tq|] eqn:KT; [|discriminate].
    apply pair_equal_spec in H. destruct H as [H1 H2]. subst s1. injection H1 as H1.
    rewrite Hfl in F1. split; [split; assumption|]. split; [split; assumption|].
    unfold core in F2. unfold flow_of in F1.
    assert (En : p_n s' = x) by congruence. rewrite En in *.
    exists tq. split; [exact KT|].
    destruct HS as (sa & A1 & A2 & _).
    rewrite (shaft_torque_Cl _ _ _ _ _ _ _ x s' Hg Hd Hq A1 A2 eq_refl rho).
    rewrite <- H1. replace (p_rho s') with rho by congruence. rnum. ring.
  Qed.
End Power.

(** *** Motor *)
Lemma PI_6 : 3141592 / 1000000 < PI < 3141594 / 1000000.
Proof.
  pose proof (PI_2_3_7_ineq 3) as [H1 H2]. unfold PI_2_3_7_tg, tg_alt, Ratan_seq in *.
  cbn [sum_f_R0 Nat.mul Nat.add] in *.
  rewrite !INR_IZR_INZ in *. cbn [Z.of_nat Pos.of_succ_nat Pos.succ] in *. lra.
Qed.
Lemma line_root_of x0 y0 x1 y1 x : y0 <> y1 -> x = x1 - y1 * (x1 - x0) / (y1 - y0) -> line_root x0 y0 x1 y1 x.
Proof. intros H ->. unfold line_root. field. lra. Qed.

Lemma motor_torque_ok (g : pgeom R) mo t n x : motor_torque g mo t n = Ok x -> mo_kv mo <> 0 ->
  control t * mo_rb mo + mo_rc mo + mo_rm mo <> 0 -> motor_torque_spec (pg_units g) mo t n x.
Proof.
  intros H Hk Hr. unfold motor_torque in H. cbv zeta in H.
  assert (Ens : (n1 - ndec 79 3 * (n1 - t))%num = 1 - 79 / 1000 * (1 - t)).
  { rnum. unfold Rdec. simpl. lra. }
  rewrite Ens in H. rnum. fold (control t) in H.
  set (i := (control t * mo_eo mo - mo_gr mo / mo_kv mo * (n * 60)) / (control t * mo_rb mo + mo_rc mo + mo_rm mo)) in H.
  assert (E1 : Rdec 70432 4 = 70432 / 10000) by (unfold Rdec; simpl; lra).
  assert (E2 : Rdec 13558179483314 13 = 13558179483314 / 10 ^ 13) by (unfold Rdec; simpl; lra).
  rewrite E1, E2 in H. exists i. split.
  - unfold loop_current, emf, i. field. split; assumption.
  - cbv zeta. set (pw := emf mo n * (i - mo_io mo)).
    assert (Ex : newton_metres (pg_units g) x * (2 * PI * n) = (70432 / 10000 * (13558179483314 / 10 ^ 13) * (2 * PI) / 60) * pw).
    { unfold newton_metres, pw, emf. destruct (pg_units g) as [u|]; [|discriminate].
      destruct (String.eqb u "English"); injection H as <-; field; exact Hk. }
    rewrite Ex. clearbody pw. pose proof PI_6 as HP.
    replace (70432 / 10000 * (13558179483314 / 10 ^ 13) * (2 * PI) / 60 * pw - pw)
      with ((70432 / 10000 * (13558179483314 / 10 ^ 13) * (2 * PI) / 60 - 1) * pw) by ring.
    rewrite Rabs_mult. apply Rmult_le_compat_r; [apply Rabs_pos|].
    apply Rabs_le. simpl pow. lra.
Qed.

(** *** Settings *)
Lemma setting_local ps name (l : dict (pval R)) : setting_of ps name = Some (PDict l) -> l <> [] ->
  local_state ps name = Some (PDict l).
Proof.
  destruct ps as [[|e d]|]; cbn [setting_of local_state dget]; auto.
  intros H Hl. injection H as <-. congruence.
Qed.
Lemma set_prop_power d (l : dict (pval R)) (s : pstate R) s1 P : p_set_prop d (Some (PDict l)) s = (Ok tt, s1) ->
  dget l "J" = None -> dget l "rot_per_sec" = None -> dget l "brake_power" = Some (PNum P) ->
  flow_of s1 = flow_of s /\ p_power s1 = Some P /\ p_throttle s1 = None.
Proof.
  intros H H1 H2 H3. apply p_set_prop_point in H. destruct H as [F H]. split; [exact F|].
  destruct l as [|e l]; [discriminate H3|]. cbv beta iota delta [op_point] in H. rewrite H1, H2, H3 in H. exact H.
Qed.
Lemma set_prop_throttle d (l : dict (pval R)) (s : pstate R) s1 t : p_set_prop d (Some (PDict l)) s = (Ok tt, s1) ->
  dget l "J" = None -> dget l "rot_per_sec" = None -> dget l "brake_power" = None ->
  dget l "electric_throttle" = Some (PNum t) ->
  flow_of s1 = flow_of s /\ p_power s1 = None /\ p_throttle s1 = Some t.
Proof.
  intros H H1 H2 H3 H4. apply p_set_prop_point in H. destruct H as [F H]. split; [exact F|].
  destruct l as [|e l]; [discriminate H4|]. cbv beta iota delta [op_point] in H. rewrite H1, H2, H3, H4 in H. exact H.
Qed.

Lemma shaft_torque_blades E u wp (p : prop R) g v rho V m s s' :
  make_pgeom E u wp p = Ok g -> 0 < pr_diameter p -> quadrature (pe_simps E) ->
  solved_flow E g (v, rho, V) m s -> blades s' = blades s ->
  shaft_torque E g rho m s' = shaft_torque E g rho m s.
Proof.
  intros Hg Hd Hq [(sa & A1 & A2 & _) _] Hb.
  rewrite (shaft_torque_Cl _ _ _ _ _ _ _ m s' Hg Hd Hq A1 A2 Hb rho).
  rewrite (shaft_torque_Cl _ _ _ _ _ _ _ m s Hg Hd Hq A1 A2 eq_refl rho).
  unfold blades in Hb. replace (p_Cl s') with (p_Cl s) by congruence. reflexivity.
Qed.

Lemma make_pgeom_units E u wp (p : prop R) g : make_pgeom E u wp p = Ok g -> pg_units g = u.
Proof.
  unfold make_pgeom, rbind. destruct (zetas p) as [zs|]; [|discriminate].
  destruct (coefficients p zs) as [c|]; [|discriminate].
  destruct (pitch E p) as [b|]; [|discriminate].
  destruct (chord E p zs) as [cb|]; [|discriminate].
  destruct (make_motor p) as [m|]; [|discriminate].
  intros Hg. apply (f_equal (fun o => match o with Ok y => y | Err _ => g end)) in Hg. subst g. reflexivity.
Qed.
Lemma make_pgeom_motor E u wp (p : prop R) g : make_pgeom E u wp p = Ok g -> make_motor p = Ok (pg_motor g).
Proof.
  unfold make_pgeom, rbind. destruct (zetas p) as [zs|]; [|discriminate].
  destruct (coefficients p zs) as [c|]; [|discriminate].
  destruct (pitch E p) as [b|]; [|discriminate].
  destruct (chord E p zs) as [cb|]; [|discriminate].
  destruct (make_motor p) as [m|]; [|discriminate].
  intros Hg. apply (f_equal (fun o => match o with Ok y => y | Err _ => g end)) in Hg. subst g. reflexivity.
Qed.

Lemma C68_power_lemma E u wp (p : prop R) g cg a ps s q s' V l P :
  make_pgeom E u wp p = Ok g -> 0 < pr_diameter p -> quadrature (pe_simps E) ->
  run_prop E cg (Some a) ps g s = (Ok q, s') -> sized g s -> dget (an a) "V_mag" = Some V ->
  setting_of ps (pg_name g) = Some (PDict l) ->
  dget l "J" = None -> dget l "rot_per_sec" = None -> dget l "brake_power" = Some (PNum P) ->
  let n := p_n s' in let rho := p_rho s' in
  exists m, Rabs (n - m) < / 10 ^ 14 /\ trial E g V m s' /\
    let Pm := shaft_power E g rho m s' in
    ((n = m /\ Rabs (Pm - P) < / 10 ^ 14) \/
     exists m0 s0, trial E g V m0 s0 /\
       let P0 := shaft_power E g rho m0 s0 in
       P0 <> Pm -> line_root m0 (P0 - P) m (Pm - P) n).
Proof.
  intros Hg Hd Hq H Hs HV Hset H1 H2 H3. cbv zeta.
  destruct (run_prop_flow _ _ _ _ _ _ _ _ _ H HV) as (rho & Hr & Hf').
  set (v := freestream _ _ _) in Hf'.
  apply run_prop_steps in H. destruct H as (s1 & s2 & s3 & K1 & K2 & K3 & _ & Es).
  pose proof (set_aero_sized g _ _ _ K1 Hs) as S1.
  pose proof (keeps_set_prop _ _ _ _ _ _ K2 S1) as S2.
  rewrite (setting_local _ _ _ Hset) in K2 by (intros ->; discriminate H3).
  destruct (p_set_aero_flow _ _ _ _ K1 HV) as (rho1 & Hr1 & Hf1 & _).
  destruct (set_prop_power _ _ _ _ _ K2 H1 H2 H3) as (F2 & P2 & T2).
  assert (Erho : rho1 = rho) by congruence. subst rho1. fold v in Hf1. rewrite Hf1 in F2.
  assert (Erho' : p_rho s' = rho) by (unfold flow_of in Hf'; congruence). rewrite Erho'.
  rewrite P2 in K3. unfold state_from_power, sbind in K3. unfold sget at 1 in K3. rewrite T2, P2 in K3.
  unfold slift in K3. destruct (pydiv (p_Vinf s2) _) in K3; [|discriminate K3].
  destruct (find_rate (pe_fuel E) (zero_power_difference E g P) s2) as [[n|e] s4] eqn:K4; [|discriminate].
  pose proof (find_rate_found (zero_power_difference E g P) (solved_flow E g (v, rho, V)) (ready g v rho V)
    (fun x s => shaft_power E g rho x s - P)
    (fun x s y s' A B => power_step E u wp p g Hg Hd Hq v rho V P x s y s' A B) _ _ _ _ K4 (conj S2 F2)) as [_ HF].
  unfold smod in K3. apply pair_equal_spec in K3. destruct K3 as [_ K3].
  assert (En : p_n s' = n).
  { rewrite Es. destruct q as [[[? ?] ?] ?]. rewrite <- K3. reflexivity. }
  assert (Eb : blades s' = blades s4).
  { rewrite Es, set_forces_blades, find_Vi_blades, <- K3. reflexivity. }
  rewrite En.
  assert (P14 : 0 < / 10 ^ 14) by (apply Rinv_0_lt_compat; apply pow_lt; lra).
  destruct HF as [[HS HG]|(m & m0 & s0 & Hm & HS & HS0 & HG)].
  - exists n. split; [rewrite Rminus_diag_eq by reflexivity; now rewrite Rabs_R0|].
    split; [exact (solved_trial _ _ _ _ _ _ _ _ HS Eb)|]. left. split; [reflexivity|].
    unfold shaft_power in *. rewrite (shaft_torque_blades _ _ _ _ _ _ _ _ _ _ _ Hg Hd Hq HS Eb). exact HG.
  - exists m. split; [exact Hm|]. split; [exact (solved_trial _ _ _ _ _ _ _ _ HS Eb)|]. right.
    exists m0, s0. split; [exact (solved_trial _ _ _ _ _ _ _ _ HS0 eq_refl)|].
    unfold shaft_power in *. rewrite (shaft_torque_blades _ _ _ _ _ _ _ _ _ _ _ Hg Hd Hq HS Eb).
    intros Hne. apply line_root_of; [lra|exact HG].
Qed.

Lemma C68_throttle_lemma E u wp (p : prop R) g cg a ps s q s' V l t mo :
  make_pgeom E u wp p = Ok g -> 0 < pr_diameter p -> quadrature (pe_simps E) ->
  run_prop E cg (Some a) ps g s = (Ok q, s') -> sized g s -> dget (an a) "V_mag" = Some V ->
  setting_of ps (pg_name g) = Some (PDict l) ->
  dget l "J" = None -> dget l "rot_per_sec" = None -> dget l "brake_power" = None ->
  dget l "electric_throttle" = Some (PNum t) ->
  pg_motor g = Some mo -> mo_kv mo <> 0 -> control t * mo_rb mo + mo_rc mo + mo_rm mo <> 0 ->
  let n := p_n s' in let rho := p_rho s' in
  exists m tq, Rabs (n - m) < / 10 ^ 14 /\ trial E g V m s' /\ motor_torque_spec u mo t m tq /\
    let Qm := shaft_torque E g rho m s' in
    ((n = m /\ Rabs (Qm - tq) < / 10 ^ 14) \/
     exists m0 s0 tq0, trial E g V m0 s0 /\ motor_torque_spec u mo t m0 tq0 /\
       let Q0 := shaft_torque E g rho m0 s0 in
       Q0 - tq0 <> Qm - tq -> line_root m0 (Q0 - tq0) m (Qm - tq) n).
Proof.
  intros Hg Hd Hq H Hs HV Hset H1 H2 H3 H4 Hmo Hkv Hres. cbv zeta.
  pose proof (make_pgeom_units _ _ _ _ _ Hg) as Hu.
  destruct (run_prop_flow _ _ _ _ _ _ _ _ _ H HV) as (rho & Hr & Hf').
  set (v := freestream _ _ _) in Hf'.
  apply run_prop_steps in H. destruct H as (s1 & s2 & s3 & K1 & K2 & K3 & _ & Es).
  pose proof (set_aero_sized g _ _ _ K1 Hs) as S1.
  pose proof (keeps_set_prop _ _ _ _ _ _ K2 S1) as S2.
  rewrite (setting_local _ _ _ Hset) in K2 by (intros ->; discriminate H4).
  destruct (p_set_aero_flow _ _ _ _ K1 HV) as (rho1 & Hr1 & Hf1 & _).
  destruct (set_prop_throttle _ _ _ _ _ K2 H1 H2 H3 H4) as (F2 & P2 & T2).
  assert (Erho : rho1 = rho) by congruence. subst rho1. fold v in Hf1. rewrite Hf1 in F2.
  assert (Erho' : p_rho s' = rho) by (unfold flow_of in Hf'; congruence). rewrite Erho'.
  rewrite P2, T2 in K3. unfold state_from_power, sbind in K3. unfold sget at 1 in K3. rewrite T2, Hmo in K3.
  unfold slift in K3. destruct (pydiv (p_Vinf s2) _) in K3; [|discriminate K3].
  destruct (find_rate (pe_fuel E) (zero_torque_difference E g mo t) s2) as [[n|e] s4] eqn:K4; [|discriminate].
  set (tqof := fun x => match motor_torque g mo t x with Ok y => y | Err _ => 0 end).
  pose proof (find_rate_found (zero_torque_difference E g mo t)
    (fun x s => solved_flow E g (v, rho, V) x s /\ motor_torque_spec u mo t x (tqof x)) (ready g v rho V)
    (fun x s => shaft_torque E g rho x s - tqof x)) as HF0.
  specialize (HF0 ltac:(intros x s5 y s6 A B;
    destruct (torque_step E u wp p g Hg Hd Hq v rho V mo t x s5 y s6 A B) as (B1 & B2 & tq & B3 & B4);
    unfold tqof; rewrite B3; split; [exact B1|]; split; [|exact B4]; split; [exact B2|];
    rewrite <- Hu; exact (motor_torque_ok g mo t x tq B3 Hkv Hres)) _ _ _ _ K4 (conj S2 F2)).
  destruct HF0 as [_ HF].
  unfold smod in K3. apply pair_equal_spec in K3. destruct K3 as [_ K3].
  assert (En : p_n s' = n).
  { rewrite Es. destruct q as [[[? ?] ?] ?]. rewrite <- K3. reflexivity. }
  assert (Eb : blades s' = blades s4).
  { rewrite Es, set_forces_blades, find_Vi_blades, <- K3. reflexivity. }
  rewrite En.
  assert (P14 : 0 < / 10 ^ 14) by (apply Rinv_0_lt_compat; apply pow_lt; lra).
  destruct HF as [[[HS HT] HG]|(m & m0 & s0 & Hm & [HS HT] & [HS0 HT0] & HG)].
  - exists n, (tqof n). split; [rewrite Rminus_diag_eq by reflexivity; now rewrite Rabs_R0|].
    split; [exact (solved_trial _ _ _ _ _ _ _ _ HS Eb)|]. split; [exact HT|]. left. split; [reflexivity|].
    rewrite (shaft_torque_blades _ _ _ _ _ _ _ _ _ _ _ Hg Hd Hq HS Eb). exact HG.
  - exists m, (tqof m). split; [exact Hm|]. split; [exact (solved_trial _ _ _ _ _ _ _ _ HS Eb)|].
    split; [exact HT|]. right.
    exists m0, s0, (tqof m0). split; [exact (solved_trial _ _ _ _ _ _ _ _ HS0 eq_refl)|]. split; [exact HT0|].
    rewrite (shaft_torque_blades _ _ _ _ _ _ _ _ _ _ _ Hg Hd Hq HS Eb).
    intros Hne. apply line_root_of; [lra|exact HG].
Qed.

Lemma motor_data_of E u wp (p : prop R) g mo : make_pgeom E u wp p = Ok g -> motor_data p mo -> pg_motor g = Some mo.
Proof.
  intros Hg Hm. apply make_pgeom_motor in Hg. unfold motor_data in Hm. cbv zeta in Hm.
  destruct Hm as (H0 & (v1 & D1 & N1) & (v2 & D2 & N2) & (v3 & D3 & N3) & (v4 & D4 & N4) & (v5 & D5 & N5) &
    (v6 & D6 & N6) & (v7 & D7 & N7)).
  assert (A : forall v (x : R), number v x -> pnum v = Ok x).
  { intros v x [->|(z & -> & ->)]; reflexivity. }
  unfold make_motor in Hg. cbv zeta in Hg.
  replace (ptruthy (dgetd (pr_motor p) "has_motor" (VBool false))) with true in Hg
    by (unfold dgetd; destruct H0 as [-> | ->]; reflexivity).
  unfold dlookup in Hg. rewrite D1, D2, D3, D4, D5, D6, D7 in Hg. unfold rbind in Hg.
  rewrite (A _ _ N1), (A _ _ N2), (A _ _ N3), (A _ _ N4), (A _ _ N5), (A _ _ N6), (A _ _ N7) in Hg.
  destruct mo; cbn in Hg. congruence.
Qed.
