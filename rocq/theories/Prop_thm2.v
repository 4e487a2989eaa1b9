(** Propeller theorems over the real numbers, part 2: what a returning solve leaves in
    every propeller. *)
From Coq Require Import Reals ZArith String Bool Arith Lia Lra List.
From Verif Require Import Base Num RVec Geometry Grid LLModel PropModel Spec_Grid Spec_LL Spec_Prop
     Prop_state LL_R LL_thm2 Prop_thm.
Import ListNotations.
Local Open Scope string_scope.
Local Open Scope R_scope.

(** *** Every propeller had its turn *)
Section Turn.
  Context {T : Type} {N : num_ops T}.
  Lemma run_props_turn E cg aero ps gs : forall ss qs ss',
    run_props (N := N) E cg aero ps gs ss = (Ok qs, ss') -> List.length ss = List.length gs ->
    forall g s', In (g, s') (combine gs ss') ->
      exists s, In (g, s) (combine gs ss) /\
                run_prop E cg aero ps g s = (Ok (p_F s', p_M s', p_T s', p_l s'), s').
  Proof.
    induction gs as [|g gs IH]; intros ss qs ss' H Hl; destruct ss as [|s ss]; try discriminate Hl.
    - intros g s' [].
    - cbn [run_props] in H. destruct (run_prop E cg aero ps g s) as [[q|e] s1] eqn:K; [|discriminate].
      destruct (run_props E cg aero ps gs ss) as [[qs1|e] ss1] eqn:K1; [|discriminate].
      injection H as H1 H2. subst qs ss'. cbn in Hl. injection Hl as Hl.
      assert (Eq : q = (p_F s1, p_M s1, p_T s1, p_l s1)).
      { destruct (run_prop_steps _ _ _ _ _ _ _ _ K) as (a & b & c & _ & _ & _ & _ & E5).
        subst s1. destruct q as [[[F M] Th] l]. reflexivity. }
      intros g' s' [Hin|Hin].
      + injection Hin as <- <-. exists s. split; [now left|]. now rewrite <- Eq.
      + destruct (IH _ _ _ K1 Hl g' s' Hin) as (s2 & A & B). exists s2. split; [now right|exact B].
  Qed.
  Lemma props_solve_calc E cg n aero ps gs ss r ss' :
    props_solve (N := N) E cg n aero ps gs ss = (Ok r, ss') ->
    calc_forces E cg aero ps gs ss = (Ok (fst r), ss').
  Proof.
    unfold props_solve, sbind. destruct (calc_forces E cg aero ps gs ss) as [[q|e] s1] eqn:K; [|discriminate].
    destruct n as [n|].
    - unfold slift. destruct (velocity_field aero n) as [rows|e]; [|discriminate].
      unfold sget, sret. intros H. apply pair_equal_spec in H. destruct H as [H1 H2].
      injection H1 as <-. subst. reflexivity.
    - unfold sret. intros H. apply pair_equal_spec in H. destruct H as [H1 H2].
      injection H1 as <-. subst. reflexivity.
  Qed.
  Lemma calc_forces_run E cg aero ps gs ss r ss' :
    calc_forces (N := N) E cg aero ps gs ss = (Ok r, ss') ->
    exists qs a, run_props E cg aero ps gs ss = (Ok qs, ss') /\ aero = Some a /\
      exists F M Th l, last_of qs = Some (F, M, Th, l) /\
      r = MkPT (make_fm (freestream n1 (dgetd (an a) "alpha" n0) (dgetd (an a) "beta" n0))
                        (fold_left (fun a q => vadd a (fst (fst (fst q)))) qs vzero)
                        (fold_left (fun a q => vadd a (snd (fst (fst q)))) qs vzero)) Th l.
  Proof.
    unfold calc_forces. destruct (run_props E cg aero ps gs ss) as [[qs|e] s1] eqn:K; [|discriminate].
    destruct aero as [a|]; [|discriminate].
    destruct (last_of qs) as [[[[F M] Th] l]|] eqn:L; [|discriminate].
    intros H. apply pair_equal_spec in H. destruct H as [H1 H2]. injection H1 as <-. subst.
    exists qs, a. split; [reflexivity|]. split; [reflexivity|]. exists F, M, Th, l. auto.
  Qed.
  Lemma solve_turn E cg n aero ps gs ss r ss' :
    props_solve (N := N) E cg n aero ps gs ss = (Ok r, ss') -> List.length ss = List.length gs ->
    forall g s', In (g, s') (combine gs ss') ->
      exists s, In (g, s) (combine gs ss) /\
                run_prop E cg aero ps g s = (Ok (p_F s', p_M s', p_T s', p_l s'), s').
  Proof.
    intros H Hl. apply props_solve_calc, calc_forces_run in H.
    destruct H as (qs & a & H & _). exact (run_props_turn _ _ _ _ _ _ _ _ H Hl).
  Qed.

  (** lengths *)
  Lemma run_props_length E cg aero ps gs : forall ss,
    List.length (snd (run_props (N := N) E cg aero ps gs ss)) = List.length ss.
  Proof.
    induction gs as [|g gs IH]; intros [|s ss]; try reflexivity. cbn [run_props].
    specialize (IH ss). destruct (run_prop E cg aero ps g s) as [[q|e] s1]; [|reflexivity].
    destruct (run_props E cg aero ps gs ss) as [[qs|e] ss1]; cbn in *; lia.
  Qed.
  Lemma props_solve_length E cg n aero ps gs ss :
    List.length (snd (props_solve (N := N) E cg n aero ps gs ss)) = List.length ss.
  Proof.
    rewrite <- (run_props_length E cg aero ps gs ss). unfold props_solve, calc_forces, sbind.
    destruct (run_props E cg aero ps gs ss) as [[qs|e] ss1]; [|reflexivity].
    destruct aero as [a|]; [|reflexivity].
    destruct (last_of qs) as [[[[F M] Th] l]|]; [|reflexivity].
    destruct n as [n|]; [|reflexivity]. unfold slift. destruct (velocity_field _ _); reflexivity.
  Qed.

  (** the list of induced angles keeps its length *)
  Lemma mapi_from_length {A B} (f : nat -> A -> B) l : forall i, List.length (mapi_from f i l) = List.length l.
  Proof. induction l; intros; cbn; auto. Qed.
  Lemma filled_length mem (l : list (option T)) : List.length (filled mem l) = List.length l.
  Proof. unfold filled, mapi. apply mapi_from_length. Qed.
  Lemma map2_min {A B C} (f : A -> B -> C) l : forall l',
    List.length (map2 f l l') = Nat.min (List.length l) (List.length l').
  Proof. induction l as [|a l IH]; intros [|b l']; cbn; auto. Qed.
  Lemma ei_function_length mem k d bl l : List.length (ei_function (N := N) mem k d bl l) = List.length l.
  Proof.
    unfold ei_function, get_CL. rewrite map2_min, filled_length, map2_min, !map_length. lia.
  Qed.
  Lemma ei_loop_length mem k d bl fuel : forall clk i l x c,
    ei_loop (N := N) fuel mem clk k d bl i l = Ok (x, c) -> List.length x = List.length l.
  Proof.
    induction fuel as [|fuel IH]; intros clk i l x c H; cbn [ei_loop] in H; [discriminate|].
    destruct (_ || _)%bool.
    - injection H as <- _. apply map_length.
    - apply IH in H. rewrite H, map2_min, ei_function_length, map_length. lia.
  Qed.
  Lemma esteps_length (ss : list (station T)) : forall einf x0 x1 y0 y1,
    List.length einf = List.length ss -> List.length x0 = List.length ss -> List.length x1 = List.length ss ->
    List.length y0 = List.length ss -> List.length y1 = List.length ss ->
    List.length (esteps ss einf x0 x1 y0 y1) = List.length ss.
  Proof.
    induction ss as [|s ss IH]; intros [|a einf] [|b x0] [|c x1] [|d y0] [|e y1];
    cbn; intros; try discriminate; auto.
  Qed.
  Lemma find_ei_length fuel mem clk k d bl ss einf ei x c :
    List.length einf = List.length ss -> List.length ei = List.length ss ->
    find_ei (N := N) fuel mem clk k d bl ss einf ei = Ok (x, c) -> List.length x = List.length ss.
  Proof.
    intros H1 H2 H. unfold find_ei in H. apply ei_loop_length in H. rewrite H.
    apply esteps_length; rewrite ?ei_function_length, ?combine_length, ?map_length, ?combine_length; lia.
  Qed.
  Lemma first_guess_length ss einf ei : List.length einf = List.length ss ->
    List.length ei = List.length ss -> List.length (first_guess (N := N) ss einf ei) = List.length ss.
  Proof.
    intros H1 H2. unfold first_guess. destruct (existsb _ _); [exact H2|]. rewrite map2_min. lia.
  Qed.
  Lemma find_coefficients_sized E g s r s' : find_coefficients (N := N) E g s = (r, s') ->
    sized g s -> sized g s'.
  Proof.
    unfold find_coefficients, sized. intros H Hs.
    destruct (last_of (pg_stations g)) as [sl|]; [|inversion H; subst; exact Hs].
    destruct (find_ei _ _ _ _ _ _ _ _ _) as [[ei clk]|e] eqn:K; inversion H; subst; [|exact Hs].
    cbn [p_ei set_coeffs]. apply find_ei_length in K; auto.
    - unfold advance_angles. apply map_length.
    - apply first_guess_length; [|exact Hs]. unfold advance_angles. apply map_length.
  Qed.

  (** a condition kept by [find_coefficients] and by changes of the other fields *)
  Definition same_ei (s s' : pstate T) : Prop := p_ei s' = p_ei s.
  Definition keeps_size {A} (g : pgeom T) (m : st (pstate T) A) : Prop :=
    forall s r s', m s = (r, s') -> sized g s -> sized g s'.
  Lemma keeps_bind {A B} g (m : st (pstate T) A) (k : A -> st (pstate T) B) :
    keeps_size g m -> (forall a, keeps_size g (k a)) -> keeps_size g (sbind m k).
  Proof.
    intros Hm Hk s r s' H Hs. unfold sbind in H. destruct (m s) as [[a|e] s1] eqn:K.
    - eapply Hk; eauto.
    - inversion H; subst. eapply Hm; eauto.
  Qed.
  Lemma keeps_smod g f : (forall s, p_ei (f s) = p_ei s) -> keeps_size g (smod f).
  Proof. intros Hf s r s' H Hs. unfold smod in H. inversion H; subst. unfold sized. now rewrite Hf. Qed.
  Lemma keeps_const {A} g (m : st (pstate T) A) : (forall s, snd (m s) = s) -> keeps_size g m.
  Proof. intros Hf s r s' H Hs. specialize (Hf s). rewrite H in Hf. cbn in Hf. now subst. Qed.
  Lemma keeps_solve E g n : keeps_size g (solve_at_rate (N := N) E g n).
  Proof.
    unfold solve_at_rate. apply keeps_bind; [apply keeps_smod; reflexivity|intros _].
    intros s r s' H Hs. eapply find_coefficients_sized; eauto.
  Qed.
  Lemma keeps_rate g f fuel : (forall n, keeps_size g (f n)) ->
    forall x0 y0 x1 y1, keeps_size g (rate_loop (N := N) fuel f x0 y0 x1 y1).
  Proof.
    intros Hf. induction fuel as [|fuel IH]; intros; cbn [rate_loop]; [now apply keeps_const|].
    destruct (nltb _ _); [now apply keeps_const|]. apply keeps_bind; [apply Hf|intros y; apply IH].
  Qed.
  Lemma keeps_find_rate g f fuel : (forall n, keeps_size g (f n)) -> keeps_size g (find_rate (N := N) fuel f).
  Proof.
    intros Hf. unfold find_rate. apply keeps_bind; [now apply keeps_const|intros x].
    apply keeps_bind; [apply Hf|intros y]. destruct (nltb _ _); [now apply keeps_const|].
    apply keeps_bind; [apply Hf|intros z]. now apply keeps_rate.
  Qed.
  Lemma keeps_slift {A} g (x : res A) : keeps_size g (slift x).
  Proof. apply keeps_const. intros s. now destruct x. Qed.
  Lemma keeps_power E g : keeps_size g (state_from_power (N := N) E g).
  Proof.
    unfold state_from_power. apply keeps_bind; [now apply keeps_const|intros s0].
    apply keeps_bind; [|intros n; now apply keeps_smod].
    destruct (p_throttle s0) as [th|].
    - destruct (pg_motor g) as [m|]; [|now apply keeps_const].
      apply keeps_bind; [apply keeps_slift|intros _]. apply keeps_find_rate. intros n. unfold zero_torque_difference.
      apply keeps_bind; [apply keeps_solve|intros _]. apply keeps_bind; [now apply keeps_const|intros s].
      apply keeps_bind; [|intros; now apply keeps_const].
      apply keeps_const. intros s1. unfold slift. now destruct (motor_torque _ _ _ _).
    - destruct (p_power s0) as [pw|]; [|now apply keeps_const].
      apply keeps_bind; [apply keeps_slift|intros _]. apply keeps_find_rate. intros n. unfold zero_power_difference.
      apply keeps_bind; [apply keeps_solve|intros _].
      apply keeps_bind; [now apply keeps_const|intros; now apply keeps_const].
  Qed.
  Lemma keeps_default g d : keeps_size g (default_op (N := N) d).
  Proof.
    unfold default_op. apply keeps_bind; [now apply keeps_const|intros V].
    apply keeps_bind; [apply keeps_slift|intros n]. now apply keeps_smod.
  Qed.
  Lemma keeps_set_prop g d l : keeps_size g (p_set_prop (N := N) d l).
  Proof.
    unfold p_set_prop.
    destruct l as [[x|[|e l]]|]; try apply keeps_default.
    - destruct (ntruthy x); [|apply keeps_default].
      apply keeps_bind; [now apply keeps_smod|intros; now apply keeps_const].
    - apply keeps_bind; [now apply keeps_smod|intros _].
      destruct (dget (e :: l) "J") as [vJ|].
      + apply keeps_bind; [apply keeps_slift|intros J]. apply keeps_bind; [now apply keeps_smod|intros _].
        apply keeps_bind; [now apply keeps_const|intros V].
        destruct (_ || _)%bool.
        * destruct (dget (e :: l) "rot_per_sec"); [|now apply keeps_const].
          apply keeps_bind; [apply keeps_slift|intros n; now apply keeps_smod].
        * apply keeps_bind; [apply keeps_slift|intros n; now apply keeps_smod].
      + destruct (dget (e :: l) "rot_per_sec") as [vn|].
        { apply keeps_bind; [apply keeps_slift|intros n]. apply keeps_bind; [now apply keeps_smod|intros _].
          apply keeps_bind; [now apply keeps_const|intros V].
          apply keeps_bind; [apply keeps_slift|intros J; now apply keeps_smod]. }
        destruct (dget (e :: l) "brake_power") as [vp|].
        { apply keeps_bind; [apply keeps_slift|intros pw; now apply keeps_smod]. }
        destruct (dget (e :: l) "electric_throttle") as [vt|]; [|now apply keeps_const].
        apply keeps_bind; [apply keeps_slift|intros pw; now apply keeps_smod].
  Qed.
  Lemma keeps_run_prop E cg aero ps g : keeps_size g (run_prop (N := N) E cg aero ps g).
  Proof.
    unfold run_prop. apply keeps_bind; [|intros _].
    { unfold p_set_aero. destruct (opt_truthy aero_truthy aero) as [a|]; [|now apply keeps_smod].
      destruct (dget (an a) "V_mag"), (dget (an a) "rho"); try (now apply keeps_smod);
      (apply keeps_bind; [now apply keeps_smod|intros; now apply keeps_const]). }
    apply keeps_bind; [apply keeps_set_prop|intros _].
    unfold p_calc_forces. apply keeps_bind; [now apply keeps_const|intros s0].
    apply keeps_bind.
    { destruct (p_power s0), (p_throttle s0); try apply keeps_power.
      intros s r s' H. eapply find_coefficients_sized; eauto. }
    intros _. apply keeps_bind; [now apply keeps_smod|intros _].
    apply keeps_bind; [now apply keeps_const|intros s1].
    apply keeps_bind; [apply keeps_slift|intros q].
    apply keeps_bind; [|intros; now apply keeps_const].
    apply keeps_smod. intros s. now destruct q as [[[? ?] ?] ?].
  Qed.
  Lemma run_props_sized E cg aero ps gs : forall ss, Forall2 sized gs ss ->
    Forall2 sized gs (snd (run_props (N := N) E cg aero ps gs ss)).
  Proof.
    induction gs as [|g gs IH]; intros ss H; inversion H as [|g0 s0 l0 l1 Hs Hr]; subst; [constructor|].
    cbn [run_props]. specialize (IH _ Hr).
    destruct (run_prop E cg aero ps g s0) as [[q|e] s1] eqn:K; pose proof (keeps_run_prop _ _ _ _ _ _ _ _ K Hs) as K1.
    - destruct (run_props E cg aero ps gs l1) as [[qs|e] ss1]; constructor; auto.
    - constructor; auto.
  Qed.
  Lemma props_solve_state E cg n aero ps gs ss :
    snd (props_solve (N := N) E cg n aero ps gs ss) = snd (run_props E cg aero ps gs ss).
  Proof.
    unfold props_solve, calc_forces, sbind.
    destruct (run_props E cg aero ps gs ss) as [[qs|e] ss1]; [|reflexivity].
    destruct aero as [a|]; [|reflexivity].
    destruct (last_of qs) as [[[[F M] Th] l]|]; [|reflexivity].
    destruct n as [n|]; [|reflexivity]. unfold slift. destruct (velocity_field _ _); reflexivity.
  Qed.
  (** reachable states *)
  Lemma props_after_sized E n gs h : Forall2 sized gs (props_after (N := N) E n gs h).
  Proof.
    unfold props_after. assert (H0 : Forall2 sized gs (map init_pstate gs)).
    { induction gs as [|g gs IH]; constructor; auto. unfold sized. cbn [init_pstate p_ei]. apply repeat_length. }
    revert H0. generalize (map init_pstate gs). induction h as [|k h IH]; intros ss H; cbn [fold_left]; [exact H|].
    apply IH. rewrite props_solve_state. now apply run_props_sized.
  Qed.
  Lemma Forall2_length' {A B} (P : A -> B -> Prop) l l' : Forall2 P l l' -> List.length l' = List.length l.
  Proof. induction 1; cbn; congruence. Qed.
  Lemma props_after_length E n gs h : List.length (props_after (N := N) E n gs h) = List.length gs.
  Proof. exact (Forall2_length' _ _ _ (props_after_sized E n gs h)). Qed.
  Lemma Forall2_combine {A B} (P : A -> B -> Prop) l l' a b : Forall2 P l l' -> In (a, b) (combine l l') -> P a b.
  Proof.
    induction 1 as [|x y l l' Hp H IH]; [intros []|]. intros [K|K]; [injection K as -> ->; exact Hp|auto].
  Qed.
End Turn.
