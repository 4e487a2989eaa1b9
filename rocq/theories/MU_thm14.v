(** Airplanes without propellers whose linear solver always answers: the derivative
    functions return.  Used to show that the hypotheses of theorems can be met. *)
From Coq Require Import Reals ZArith String Bool Arith Lia Lra List.
From Verif Require Import Base Num RVec Geometry Grid LLModel PropModel Spec_Grid Spec_LL LL_state LL_R MU Spec_MU MU_thm MU_thm2 MU_thm3 MU_thm4 MU_thm5 MU_thm6 MU_thm7 MU_thm8.
Import ListNotations.
Local Open Scope string_scope.

Section Runs.
  Context {T : Type} {N : num_ops T} {S : Type}.
  Variable H : host T S.
  Notation W := (world T S).
  Variable ok : aero_state T -> Prop.
  Hypothesis ok_given : forall a, ok a -> given a.
  Hypothesis ok_set : forall a k x, ok a -> ok (MkAero (dset (an a) k x) (als a)).
  Hypothesis total : forall a c s, ok a -> exists f s', h_solve H a c s = (Ok f, a, s').
  Hypothesis refs : exists r, h_refs H = Some r.

  Definition good (w : W) : Prop := (exists a, w_aero w = Some a /\ ok a) /\ exists c, w_ctl w = Some c.
  Definition runs {A} (m : st W A) : Prop := forall w, good w -> exists x w', m w = (Ok x, w') /\ good w'.
  Lemma runs_bind {A B} (m : st W A) (f : A -> st W B) : runs m -> (forall x, runs (f x)) -> runs (sbind m f).
  Proof.
    intros Hm Hf w Hw. destruct (Hm w Hw) as (x & w1 & K1 & G1). destruct (Hf x w1 G1) as (y & w2 & K2 & G2).
    exists y, w2. unfold sbind. now rewrite K1.
  Qed.
  Lemma runs_ret {A} (x : A) : runs (sret x).
  Proof. intros w Hw. exists x, w. auto. Qed.
  Lemma runs_get_aero k x : runs (get_aero k x).
  Proof. intros w Hw. pose proof Hw as [(a & Ea & _) _]. exists (dgetd (an a) k x), w. unfold get_aero. now rewrite Ea. Qed.
  Lemma runs_get_ctl k x : runs (get_ctl k x).
  Proof. intros w Hw. pose proof Hw as [_ (c & Ec)]. exists (dgetd c k x), w. unfold get_ctl. now rewrite Ec. Qed.
  Lemma runs_set_aero k x : runs (set_aero k x).
  Proof.
    intros w [(a & Ea & Oa) (c & Ec)]. eexists tt, _. split; [reflexivity|]. cbn [put_aero w_aero w_ctl]. rewrite Ea.
    split; [|exists c; exact Ec]. eexists. split; [reflexivity|]. now apply ok_set.
  Qed.
  Lemma runs_set_ctl k x : runs (set_ctl k x).
  Proof.
    intros w [(a & Ea & Oa) (c & Ec)]. eexists tt, _. split; [reflexivity|]. split; cbn [put_ctl w_aero w_ctl]; [eauto|]. rewrite Ec. eexists. reflexivity.
  Qed.
  Lemma runs_solve : runs (do_solve H).
  Proof.
    intros w [(a & Ea & Oa) (c & Ec)]. unfold do_solve. rewrite (aero_given_some w a Ea (ok_given a Oa)). unfold raw_solve. rewrite Ea.
    destruct (total a (w_ctl w) (w_model w) Oa) as (f & s' & ->). eexists f, _. split; [reflexivity|]. split; cbn [w_aero w_ctl]; eauto.
  Qed.
  Lemma runs_refs : runs (need_refs H).
  Proof. destruct refs as [r Er]. intros w Hw. exists r, w. unfold need_refs. rewrite Er. auto. Qed.
  Ltac go := repeat first [apply runs_bind; [|intros ?] | apply runs_ret | apply runs_get_aero | apply runs_get_ctl
                          | apply runs_set_aero | apply runs_set_ctl | apply runs_solve | apply runs_refs].
  Lemma runs_stability : runs (stability_derivatives H).
  Proof.
    assert (G : runs (stability_body H)) by (unfold stability_body, dynamic_pressure_area, around_aero; go).
    intros w Hw. unfold stability_derivatives. pose proof Hw as [(a & Ea & Oa) _]. rewrite (aero_given_some w a Ea (ok_given a Oa)). now apply G.
  Qed.
  Lemma runs_damping : runs (damping_derivatives H).
  Proof.
    assert (G : runs (damping_body H)) by (unfold damping_body, around_aero; go).
    intros w Hw. unfold damping_derivatives. pose proof Hw as [(a & Ea & Oa) _]. rewrite (aero_given_some w a Ea (ok_given a Oa)). now apply G.
  Qed.
  Lemma runs_control_body : runs (control_body H).
  Proof. unfold control_body, dynamic_pressure_area, around_ctl. go. Qed.
  Lemma runs_control : runs (control_derivatives H).
  Proof.
    intros w Hw. unfold control_derivatives. destruct (ctl_given w); [now apply runs_control_body|].
    unfold with_ctl. pose proof Hw as [(a & Ea & Oa) (c & Ec)].
    destruct (runs_control_body (put_ctl (Some default_ctl) w)) as (x & w' & K & [G1 _]).
    { split; cbn [put_ctl w_aero w_ctl]; eauto. }
    rewrite K. eexists x, _. split; [reflexivity|]. split; cbn [put_ctl w_aero w_ctl]; eauto.
  Qed.
End Runs.

Section Wings.
  Local Open Scope R_scope.
  Variable E : menv R.
  Variable X : machup R.
  Variable ps : option (dict (pval R)).
  Variable g : grid R.
  Hypothesis no_props : mm_props X = [].
  Hypothesis wings : mm_grid X = Some g.
  Hypothesis has_refs : exists r, mm_refs X = Some r.
  Hypothesis answers : forall A b, me_lsolve E A b <> None.
  Notation H := (host_of E X ps).

  Definition usable_aero (a : aero_state R) : Prop :=
    als a = None /\ dget (an a) "V_mag" <> None /\ dget (an a) "rho" <> None.
  Lemma usable_given a : usable_aero a -> given a.
  Proof. intros (_ & K & _). left. intros Q. rewrite Q in K. now apply K. Qed.
  Lemma dget_dset_some {A} (d : dict A) k x k' : dget d k' <> None -> dget (dset d k x) k' <> None.
  Proof.
    intros K. destruct (String.string_dec k' k) as [->|Hn]; [rewrite dget_dset_same; discriminate|].
    rewrite dget_dset_other; auto.
  Qed.
  Lemma usable_set a k x : usable_aero a -> usable_aero (MkAero (dset (an a) k x) (als a)).
  Proof. intros (K1 & K2 & K3). repeat split; cbn [an als]; auto using dget_dset_some. Qed.
  Lemma wings_total a c s : usable_aero a -> exists f s', h_solve H a c s = (Ok f, a, s').
  Proof.
    intros U. cbn [host_of h_solve]. unfold solve_parts. rewrite no_props, wings.
    assert (Hu : usable_flow (g_num g) (Some a)).
    { destruct U as (K1 & K2 & K3). unfold usable_flow. rewrite K1. auto. }
    pose proof (solve_errors (me_lsolve E) g (mm_cg X) "linear" (Some a) c (m_ll s)) as (_ & _ & _ & K).
    specialize (K Hu eq_refl).
    destruct (ll_solve (me_lsolve E) g (mm_cg X) "linear" (Some a) c (m_ll s)) as [r l] eqn:Es. cbn [fst] in K.
    destruct K as [->| ->].
    - destruct (ll_solve_inv _ _ _ _ _ _ _ Es) as (s1 & s2 & _ & _ & _ & K). apply linear_solve_results in K.
      destruct K as [res K]. cbn [read_ref]. rewrite K. eexists _, _. reflexivity.
    - exfalso. unfold ll_solve, sbind in Es. destruct (process_aero g (mm_cg X) (Some a) (m_ll s)) as [[[]|e] s1] eqn:Ep.
      + destruct (process_control g c s1) as [[[]|e] s2] eqn:Epc.
        * cbn in Es. unfold linear_solve in Es. pose proof (answers (a_matrix (l_uinf s2) (cells g s2)) (map b_entry (cells g s2))) as An.
          destruct (me_lsolve E _ _); [discriminate|easy].
        * unfold process_control in Epc. destruct (opt_truthy dtruthy c); discriminate.
      + apply usable_flow_spec in Hu. destruct (process_aero_ok g (mm_cg X) (Some a) (m_ll s) Hu) as (s3 & K & _). congruence.
  Qed.

  Lemma wings_run_stability w a c : w_aero w = Some a -> usable_aero a -> w_ctl w = Some c ->
    exists d w', stability_derivatives H w = (Ok d, w') /\ good usable_aero w'.
  Proof.
    intros Ea Ua Ec. apply (runs_stability H usable_aero usable_given usable_set wings_total has_refs). split; eauto.
  Qed.
  Lemma wings_run_damping w a c : w_aero w = Some a -> usable_aero a -> w_ctl w = Some c ->
    exists d w', damping_derivatives H w = (Ok d, w').
  Proof.
    intros Ea Ua Ec. destruct (runs_damping H usable_aero usable_given usable_set wings_total has_refs w) as (d & w' & K & _); [split; eauto|eauto].
  Qed.
  Lemma wings_run_control w a c : w_aero w = Some a -> usable_aero a -> w_ctl w = Some c ->
    exists d w', control_derivatives H w = (Ok d, w').
  Proof.
    intros Ea Ua Ec. destruct (runs_control H usable_aero usable_given wings_total has_refs w) as (d & w' & K & _); [split; eauto|eauto].
  Qed.
  Lemma wings_run_derivatives f w a c : w_aero w = Some a -> usable_aero a -> w_ctl w = Some c ->
    exists d w', derivatives H f w = (Ok (Answer d), w').
  Proof.
    intros Ea Ua Ec. destruct (wings_run_stability w a c Ea Ua Ec) as (d & w1 & K1 & G1).
    destruct (runs_control H usable_aero usable_given wings_total has_refs w1 G1) as (d2 & w2 & K2 & G2).
    destruct (runs_damping H usable_aero usable_given usable_set wings_total has_refs w2 G2) as (d3 & w3 & K3 & G3).
    destruct (stability_given H (host_keeps E X ps) w a d w1 Ea (usable_given a Ua) K1)
      as (r & k1 & k2 & k3 & k4 & b1 & f1 & b2 & f2 & a' & _ & _ & _ & _ & _ & _ & _ & D & _).
    pose proof (D "CL" (@FL R) 1 ltac:(cbn; auto)) as D1. pose proof (D "Cm" (@MY R) (r_long r) ltac:(cbn; tauto)) as D2.
    change (String.append "CL" "_a") with "CL_a" in D1. change (String.append "Cm" "_a") with "Cm_a" in D2.
    destruct has_refs as [r0 Er]. unfold derivatives. cbn [host_of h_refs]. rewrite Er.
    unfold sbind. cbn [host_of] in K1, K2, K3. rewrite K1. unfold slift, dlookup. rewrite D1, D2. rewrite K2, K3. unfold sret.
    rewrite write_run. eexists _, _. reflexivity.
  Qed.
End Wings.
