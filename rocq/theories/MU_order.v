(** Wings entered in another order: the object and its analyses (C78). *)
From Coq Require Import Reals ZArith String Bool Arith Lia Lra List Permutation FunctionalExtensionality.
From Verif Require Import Base Num RVec Geometry Grid LLModel PropModel MU Spec_LL LL_props LL_place MU_place Spec_Order LL_order Grid_order.
Import ListNotations.
Local Open Scope string_scope.
Local Open Scope R_scope.

(** *** Any analysis, for two models with the same solve *)
Section Sim.
  Variables (n : nat) (f : nat -> nat) (H H' : host R (mstate R)) (E : menv R).
  Hypothesis Hsolve : forall a a' c s s', same_flow n f a a' -> same_model n f s s' ->
    match h_solve H a c s, h_solve H' a' c s' with
    | (r, b, t), (r', b', t') => r' = r /\ same_flow n f b b' /\ same_model n f t t'
    end.
  Hypothesis Hrefs : h_refs H' = h_refs H.
  Hypothesis Hcg : h_cg H' = h_cg H.
  Hypothesis Hparts : h_parts H' = h_parts H.
  Hypothesis Hstall : forall s s', same_model n f s s' ->
    match h_stalled H s, h_stalled H' s' with
    | Ok None, Ok None => True
    | Ok (Some _), Ok (Some _) => True
    | Err e, Err e' => e' = e
    | _, _ => False
    end.
  Notation run := (same_run n f).

  Lemma sim_bind {A B} (Q : A -> A -> Prop) (Q2 : B -> B -> Prop) p p' k k' : run Q p p' ->
    (forall a a', Q a a' -> run Q2 (k a) (k' a')) -> run Q2 (sbind p k) (sbind p' k').
  Proof.
    intros Hp K w w' Hw. specialize (Hp w w' Hw). unfold sbind. destruct (p w) as [[a|e] t], (p' w') as [[a'|e'] t']; cbn [fst snd] in *.
    - destruct Hp as [HQ HS]. exact (K a a' HQ t t' HS).
    - destruct Hp as [[] _].
    - destruct Hp as [[] _].
    - exact Hp.
  Qed.
  Lemma sim_ret {A} (Q : A -> A -> Prop) a a' : Q a a' -> run Q (sret a) (sret a').
  Proof. intros K w w' Hw. cbn. auto. Qed.
  Lemma sim_raise {A} (Q : A -> A -> Prop) e : run Q (sraise e) (sraise e).
  Proof. intros w w' Hw. cbn. auto. Qed.
  Lemma sim_lift {A} (r : res A) : run eq (slift r) (slift r).
  Proof. intros w w' Hw. unfold slift. destruct r; cbn; auto. Qed.
  Lemma sim_get_aero k x : run eq (get_aero k x) (get_aero k x).
  Proof.
    intros w w' Hw. unfold get_aero. pose proof (sw_aero _ _ _ _ Hw) as A. destruct (w_aero w) as [a|], (w_aero w') as [a'|]; try contradiction; cbn; auto.
    destruct A as [-> _]. auto.
  Qed.
  Lemma sim_get_ctl k x : run eq (get_ctl k x) (get_ctl k x).
  Proof. intros w w' Hw. unfold get_ctl. rewrite (sw_ctl _ _ _ _ Hw). destruct (w_ctl w); cbn; auto. Qed.
  Lemma sim_set_aero k x : run eq (set_aero k x) (set_aero k x).
  Proof.
    intros w w' Hw. unfold set_aero, smod. cbn [fst snd]. split; [reflexivity|]. pose proof (sw_aero _ _ _ _ Hw) as A. destruct Hw.
    constructor; cbn [put_aero w_aero w_ctl w_model w_files]; auto.
    destruct (w_aero w) as [a|], (w_aero w') as [a'|]; try contradiction; cbn [option_map]; auto.
    destruct A as [A1 A2]. split; cbn [an als]; [now rewrite A1|exact A2].
  Qed.
  Lemma sim_set_ctl k x : run eq (set_ctl k x) (set_ctl k x).
  Proof.
    intros w w' Hw. unfold set_ctl, smod. cbn [fst snd]. split; [reflexivity|]. destruct Hw.
    constructor; cbn [put_ctl w_aero w_ctl w_model w_files]; auto. now rewrite sw_ctl.
  Qed.
  Lemma sim_with_aero {A} (Q : A -> A -> Prop) a a' p p' : same_flow n f a a' -> run Q p p' -> run Q (with_aero a p) (with_aero a' p').
  Proof.
    intros Ha Hp w w' Hw. unfold with_aero.
    assert (W : same_world n f (put_aero (Some a) w) (put_aero (Some a') w')) by (destruct Hw; constructor; cbn; auto).
    specialize (Hp _ _ W). destruct (p (put_aero (Some a) w)) as [r t], (p' (put_aero (Some a') w')) as [r' t']. cbn [fst snd] in *.
    destruct Hp as [HQ [? ? ? ?]]. split; [exact HQ|]. destruct Hw. constructor; cbn; auto.
  Qed.
  Lemma sim_with_ctl {A} (Q : A -> A -> Prop) c p p' : run Q p p' -> run Q (with_ctl c p) (with_ctl c p').
  Proof.
    intros Hp w w' Hw. unfold with_ctl.
    assert (W : same_world n f (put_ctl (Some c) w) (put_ctl (Some c) w')) by (destruct Hw; constructor; cbn; auto).
    specialize (Hp _ _ W). destruct (p (put_ctl (Some c) w)) as [r t], (p' (put_ctl (Some c) w')) as [r' t']. cbn [fst snd] in *.
    destruct Hp as [HQ [? ? ? ?]]. split; [exact HQ|]. destruct Hw. constructor; cbn; auto.
  Qed.
  Lemma flow_refl_none d : same_flow n f (MkAero d None) (MkAero d None).
  Proof. split; cbn; auto. Qed.
  Lemma flow_truthy a a' : same_flow n f a a' -> aero_truthy a' = aero_truthy a.
  Proof. intros [E1 E2]. unfold aero_truthy. rewrite E1. destruct (als a), (als a'); try contradiction; reflexivity. Qed.
  Lemma given_same w w' : same_world n f w w' -> aero_given w' = aero_given w /\ ctl_given w' = ctl_given w.
  Proof.
    intros Hw. unfold aero_given, ctl_given. rewrite (sw_ctl _ _ _ _ Hw). split; [|reflexivity]. pose proof (sw_aero _ _ _ _ Hw) as A.
    destruct (w_aero w) as [a|], (w_aero w') as [a'|]; try contradiction; cbn [opt_truthy]; auto. rewrite (flow_truthy _ _ A). destruct (aero_truthy a); reflexivity.
  Qed.
  Lemma sim_given {A} (Q : A -> A -> Prop) p p' q q' : run Q p p' -> run Q q q' ->
    run Q (fun w => if aero_given w then p w else q w) (fun w => if aero_given w then p' w else q' w).
  Proof. intros Hp Hq w w' Hw. destruct (given_same w w' Hw) as [-> _]. destruct (aero_given w); auto. Qed.
  Lemma sim_ctl_given {A} (Q : A -> A -> Prop) p p' q q' : run Q p p' -> run Q q q' ->
    run Q (fun w => if ctl_given w then p w else q w) (fun w => if ctl_given w then p' w else q' w).
  Proof. intros Hp Hq w w' Hw. destruct (given_same w w' Hw) as [_ ->]. destruct (ctl_given w); auto. Qed.
  Lemma sim_state {A} (Q : A -> A -> Prop) p p' q q' : (forall a a', same_flow n f a a' -> run Q (p a) (p' a')) -> run Q q q' ->
    run Q (fun w => match opt_truthy aero_truthy (w_aero w) with Some a => p a w | None => q w end)
          (fun w => match opt_truthy aero_truthy (w_aero w) with Some a => p' a w | None => q' w end).
  Proof.
    intros Hp Hq w w' Hw. pose proof (sw_aero _ _ _ _ Hw) as K.
    destruct (w_aero w) as [a|], (w_aero w') as [a'|]; try contradiction; cbn [opt_truthy]; [|now apply Hq].
    rewrite (flow_truthy _ _ K). destruct (aero_truthy a); [|now apply Hq]. now apply Hp.
  Qed.
  Lemma sim_file o c : run eq (write_if o c) (write_if o c).
  Proof.
    unfold write_if. destruct (named o); [|now apply sim_ret]. intros w w' Hw. cbn. split; [reflexivity|].
    destruct Hw. constructor; cbn; auto. now rewrite sw_files.
  Qed.
  Lemma sim_raw : run eq (raw_solve H) (raw_solve H').
  Proof.
    intros w w' Hw. unfold raw_solve. pose proof (sw_aero _ _ _ _ Hw) as A.
    destruct (w_aero w) as [a|] eqn:Ea, (w_aero w') as [a'|] eqn:Ea'; try contradiction; [|cbn; auto].
    rewrite (sw_ctl _ _ _ _ Hw). pose proof (Hsolve a a' (w_ctl w) (w_model w) (w_model w') A (sw_model _ _ _ _ Hw)) as K.
    destruct (h_solve H a (w_ctl w) (w_model w)) as [[r b] t], (h_solve H' a' (w_ctl w) (w_model w')) as [[r' b'] t'].
    destruct K as (-> & K1 & K2). cbn [fst snd]. split; [destruct r; reflexivity|]. destruct Hw. constructor; cbn; auto.
  Qed.
  Lemma sim_solve : run eq (do_solve H) (do_solve H').
  Proof. unfold do_solve. apply sim_given; [apply sim_raw|]. apply sim_with_aero; [apply flow_refl_none|apply sim_raw]. Qed.
  Lemma sim_refs : run eq (need_refs H) (need_refs H').
  Proof. unfold need_refs. rewrite Hrefs. destruct (h_refs H); [now apply sim_ret|apply sim_raise]. Qed.

  Ltac step := eapply sim_bind with (Q := eq);
    [first [apply sim_get_aero|apply sim_get_ctl|apply sim_set_aero|apply sim_set_ctl|apply sim_solve|apply sim_refs|apply sim_file|apply sim_lift]|intros ? ? <-].
  Lemma sim_pressure : run eq (dynamic_pressure_area H) (dynamic_pressure_area H').
  Proof. unfold dynamic_pressure_area. do 3 step. now apply sim_ret. Qed.
  Lemma sim_around_aero k x d : run eq (around_aero H k x d) (around_aero H' k x d).
  Proof. unfold around_aero. do 4 step. now apply sim_ret. Qed.
  Lemma sim_around_ctl k x d : run eq (around_ctl H k x d) (around_ctl H' k x d).
  Proof. unfold around_ctl. do 4 step. now apply sim_ret. Qed.
  Ltac more := eapply sim_bind with (Q := eq);
    [first [apply sim_pressure|apply sim_around_aero|apply sim_around_ctl|apply sim_get_aero|apply sim_get_ctl|apply sim_set_aero|apply sim_set_ctl|apply sim_solve|apply sim_refs|apply sim_file|apply sim_lift]|intros ? ? <-].
  Lemma sim_stability : run eq (stability_derivatives H) (stability_derivatives H').
  Proof.
    assert (B : run eq (stability_body H) (stability_body H')) by (unfold stability_body; cbv zeta; do 8 more; now apply sim_ret).
    unfold stability_derivatives. apply sim_given; [exact B|]. apply sim_with_aero; [apply flow_refl_none|exact B].
  Qed.
  Lemma sim_damping : run eq (damping_derivatives H) (damping_derivatives H').
  Proof.
    assert (B : run eq (damping_body H) (damping_body H')) by (unfold damping_body; cbv zeta; do 12 more; now apply sim_ret).
    unfold damping_derivatives. apply sim_given; [exact B|]. apply sim_with_aero; [apply flow_refl_none|exact B].
  Qed.
  Lemma sim_control : run eq (control_derivatives H) (control_derivatives H').
  Proof.
    assert (B : run eq (control_body H) (control_body H')) by (unfold control_body; cbv zeta; do 14 more; now apply sim_ret).
    unfold control_derivatives. apply sim_ctl_given; [exact B|]. apply sim_with_ctl. exact B.
  Qed.
  Lemma sim_derivatives o : run eq (derivatives H o) (derivatives H' o).
  Proof.
    unfold derivatives. eapply sim_bind with (Q := eq).
    - rewrite Hrefs. case (h_refs H); [intros rf|].
      + eapply sim_bind with (Q := eq); [apply sim_stability|intros ? ? <-]. do 2 more. cbv zeta.
        eapply sim_bind with (Q := eq); [apply sim_control|intros ? ? <-].
        eapply sim_bind with (Q := eq); [apply sim_damping|intros ? ? <-]. now apply sim_ret.
      + destruct (named o); [now apply sim_ret|apply sim_raise].
    - intros ? ? <-. more. now apply sim_ret.
  Qed.
  Lemma sim_lift_loop : forall fuel t e o x0 y0 x1 y1 i, run eq (lift_loop H fuel t e o x0 y0 x1 y1 i) (lift_loop H' fuel t e o x0 y0 x1 y1 i).
  Proof.
    induction fuel as [|fuel IH]; intros; [apply sim_raise|]. cbn [lift_loop]. rewrite Hparts.
    case (negb (h_parts H)); [apply sim_raise|]. cbv zeta.
    match goal with |- context [if nltb (nabs ?q) ?e then _ else _] => destruct (nltb (nabs q) e) end; [now apply sim_ret|].
    do 2 more. destruct (Nat.ltb 20 (S i)); [|apply IH]. destruct (named o); [now apply sim_ret|apply sim_raise].
  Qed.
  Lemma flow_set a a' k x : same_flow n f a a' -> same_flow n f (MkAero (dset (an a) k x) (als a)) (MkAero (dset (an a') k x) (als a')).
  Proof. intros [E1 E2]. split; cbn [an als]; [now rewrite E1|exact E2]. Qed.
  Lemma sim_lift_body t e o a a' : same_flow n f a a' -> run eq (lift_body H t e o a) (lift_body H' t e o a').
  Proof.
    intros Ha. unfold lift_body. cbv zeta. assert (Ea : an a' = an a) by apply Ha. rewrite Ea. more.
    assert (F : forall k x, same_flow n f (MkAero (dset (an a) k x) (als a)) (MkAero (dset (an a) k x) (als a'))).
    { intros k x. pose proof (flow_set a a' k x Ha) as F. now rewrite Ea in F. }
    eapply sim_bind with (Q := eq); [apply sim_with_aero; [apply F|apply sim_solve]|intros ? ? <-].
    apply sim_with_aero; [apply F|]. more. apply sim_lift_loop.
  Qed.
  Lemma sim_target t o e : run eq (target_lift H t o e) (target_lift H' t o e).
  Proof.
    unfold target_lift. eapply sim_bind with (Q := eq).
    - apply (sim_state eq (lift_body H t e o) (lift_body H' t e o)).
      + intros a a' Ha. now apply sim_lift_body.
      + apply sim_with_aero; [apply flow_refl_none|]. apply sim_lift_body, flow_refl_none.
    - intros ? ? <-. more. now apply sim_ret.
  Qed.
  Lemma sim_slope g : run eq (slope_of H g) (slope_of H' g).
  Proof. unfold slope_of. cbv zeta. do 6 more. now apply sim_ret. Qed.
  Lemma sim_trim_loop : forall fuel L m e o a d i, run eq (trim_loop H E fuel L m e o a d i) (trim_loop H' E fuel L m e o a d i).
  Proof.
    induction fuel as [|fuel IH]; intros; [apply sim_raise|]. cbn [trim_loop]. do 3 more. cbv zeta.
    match goal with |- context [if ?b then _ else _] => destruct b end; [more; now apply sim_ret|].
    eapply sim_bind with (Q := eq); [apply sim_slope|intros [La Ld] ? <-].
    eapply sim_bind with (Q := eq); [apply sim_slope|intros [ma md] ? <-].
    match goal with |- context [if ?b then _ else _] => destruct b end; [destruct (named o); [more; now apply sim_ret|apply sim_raise]|].
    more. match goal with |- context [mat_vec ?p ?q] => destruct (mat_vec p q) as [|d0 [|d1 r]] end; try apply sim_raise.
    destruct (Nat.ltb 100 (S i)); [destruct (named o); [more; now apply sim_ret|apply sim_raise]|]. apply IH.
  Qed.
  Lemma sim_trim L m o e : run eq (pitch_trim H E L m o e) (pitch_trim H' E L m o e).
  Proof.
    assert (B : forall e o, run eq (trim_body H E L m e o) (trim_body H' E L m e o)) by (intros; apply sim_trim_loop).
    intros w w' Hw. unfold pitch_trim. destruct (given_same w w' Hw) as [-> ->]. destruct (aero_given w), (ctl_given w).
    - now apply B.
    - now apply (sim_with_ctl eq default_ctl _ _ (B _ _)).
    - now apply (sim_with_aero eq _ _ _ _ (flow_refl_none _) (B _ _)).
    - apply (sim_with_aero eq _ _ _ _ (flow_refl_none _) (sim_with_ctl eq default_ctl _ _ (B _ _))). exact Hw.
  Qed.
  Lemma sim_stall_loop : forall fuel a, run same_stall (stall_loop H E fuel a) (stall_loop H' E fuel a).
  Proof.
    induction fuel as [|fuel IH]; intros; [apply sim_raise|]. cbn [stall_loop]. do 2 more.
    eapply sim_bind with (Q := same_model n f).
    { intros w w' Hw. cbn. split; [apply (sw_model _ _ _ _ Hw)|exact Hw]. }
    intros s s' Hs. pose proof (Hstall s s' Hs) as K.
    eapply sim_bind with (Q := fun i i' : option (string * R) => match i, i' with None, None => True | Some _, Some _ => True | _, _ => False end).
    { intros w w' Hw. unfold slift. cbn [fst snd]. split; [|exact Hw].
      destruct (h_stalled H s) as [[?|]|], (h_stalled H' s') as [[?|]|]; auto. }
    intros [[wg sp]|] [[wg' sp']|] Hi; try contradiction; [|apply IH]. apply sim_ret. split; [|split]; reflexivity.
  Qed.
  Lemma sim_onset_body : run same_stall (onset_body H E) (onset_body H' E).
  Proof. apply sim_stall_loop. Qed.
  Lemma sim_onset : run (same_answer same_stall) (stall_onset H E None) (stall_onset H' E None).
  Proof.
    unfold stall_onset. eapply sim_bind with (Q := same_answer same_stall).
    - rewrite Hrefs. case (h_refs H); [intros rf|apply sim_raise].
      eapply sim_bind with (Q := same_stall).
      + apply sim_given; [apply sim_onset_body|]. apply sim_with_aero; [apply flow_refl_none|apply sim_onset_body].
      + intros i i' Hi. now apply sim_ret.
    - intros r r' Hr. unfold write_if. cbn [named]. eapply sim_bind with (Q := eq); [now apply sim_ret|]. intros _ _ _. now apply sim_ret.
  Qed.
  Lemma sim_airspeed_loop : forall fuel wt e x0 y0 x1 y1 i i', same_stall i i' ->
    run same_stall (airspeed_loop H E fuel wt e x0 y0 x1 y1 i) (airspeed_loop H' E fuel wt e x0 y0 x1 y1 i').
  Proof.
    induction fuel as [|fuel IH]; intros wt e x0 y0 x1 y1 i i' Hi; [apply sim_raise|]. cbn [airspeed_loop]. cbv zeta.
    match goal with |- context [if nltb (nabs ?q) ?e then _ else _] => destruct (nltb (nabs q) e) end.
    - apply sim_ret. destruct Hi as (A1 & A2 & _). split; [|split]; cbn; auto.
    - more. eapply sim_bind with (Q := same_stall); [apply sim_onset_body|]. intros j j' Hj.
      destruct Hj as (B1 & B2 & B3) eqn:K. rewrite B2. apply IH. exact Hj.
  Qed.
  Lemma sim_airspeed_body wt e a a' : same_flow n f a a' -> run same_stall (airspeed_body H E wt e a) (airspeed_body H' E wt e a').
  Proof.
    intros Ha. unfold airspeed_body. cbv zeta. assert (Ea : an a' = an a) by apply Ha. rewrite Ea. more.
    assert (F : forall k x, same_flow n f (MkAero (dset (an a) k x) (als a)) (MkAero (dset (an a) k x) (als a'))).
    { intros k x. pose proof (flow_set a a' k x Ha) as F. now rewrite Ea in F. }
    eapply sim_bind with (Q := same_stall); [apply sim_with_aero; [apply F|apply sim_onset_body]|]. intros i i' Hi.
    apply sim_with_aero; [apply F|]. eapply sim_bind with (Q := same_stall); [apply sim_onset_body|]. intros j j' Hj.
    assert (E1 : si_lift i' = si_lift i) by apply Hi. assert (E2 : si_lift j' = si_lift j) by apply Hj. rewrite E1, E2.
    now apply sim_airspeed_loop.
  Qed.
  Lemma sim_airspeed wt e : run (same_answer same_stall) (stall_airspeed H E wt None e) (stall_airspeed H' E wt None e).
  Proof.
    unfold stall_airspeed. eapply sim_bind with (Q := same_answer same_stall).
    - rewrite Hrefs. case (h_refs H); [intros rf|apply sim_raise].
      eapply sim_bind with (Q := same_stall).
      + apply (sim_state same_stall (airspeed_body H E wt e) (airspeed_body H' E wt e)).
        * intros a a' Ha. now apply sim_airspeed_body.
        * intros w w' Hw. cbn. auto.
      + intros i i' Hi. now apply sim_ret.
    - intros r r' Hr. unfold write_if. cbn [named]. eapply sim_bind with (Q := eq); [now apply sim_ret|]. intros _ _ _. now apply sim_ret.
  Qed.
  Lemma sim_sweep : forall l, run eq (sweep H l) (sweep H' l).
  Proof.
    induction l as [|x l IH]; [now apply sim_ret|]. cbn [sweep]. do 2 more.
    eapply sim_bind with (Q := eq); [apply IH|intros ? ? <-]. now apply sim_ret.
  Qed.
  Lemma sim_center o : run eq (find_aero_center H E o) (find_aero_center H' E o).
  Proof.
    assert (B : run eq (center_body H E) (center_body H' E)).
    { unfold center_body. generalize (sweep_angles : list R). intros xs. do 2 more.
      eapply sim_bind with (Q := eq); [apply sim_sweep|intros ? ? <-]. more. cbv zeta. destruct (lift_fit _ _ _) as [aL0 CL0_a].
      eapply sim_bind with (Q := eq); [apply sim_lift|intros [[CD0 CD0_L] CD0_L2] ? <-].
      eapply sim_bind with (Q := eq); [apply sim_lift|intros [[Cm0 CmN] CmA] ? <-]. rewrite Hcg. now apply sim_ret. }
    unfold find_aero_center. eapply sim_bind with (Q := eq).
    - apply sim_given; [exact B|]. apply sim_with_aero; [apply flow_refl_none|exact B].
    - intros ? ? <-. more. now apply sim_ret.
  Qed.
End Sim.
