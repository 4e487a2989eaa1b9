(** Propeller theorems over the real numbers, part 3: operating point, induced angles,
    forces and slipstream after a returning solve. *)
From Coq Require Import Reals ZArith String Bool Arith Lia Lra List.
From Verif Require Import Base Num RVec Geometry Grid LLModel PropModel Spec_Grid Spec_LL Spec_Prop
     Prop_state LL_R LL_thm2 Prop_thm Prop_thm2.
Import ListNotations.
Local Open Scope string_scope.

(** *** What the search for the rotation rate leaves behind *)
Section Search.
  Context {T : Type} {N : num_ops T}.
  (** [s] was left by a blade-element solve at rate [x] *)
  Definition solved_at (E : penv T) (g : pgeom T) (x : T) (s : pstate T) : Prop :=
    exists sa, find_coefficients E g sa = (Ok tt, s) /\ sized g sa /\ p_n sa = x /\
      p_J sa = (p_Vinf sa / (x * pg_d g))%num.
  Lemma solve_at_rate_solved E g x s s' : solve_at_rate (N := N) E g x s = (Ok tt, s') -> sized g s ->
    solved_at E g x s'.
  Proof.
    unfold solve_at_rate, sbind, smod. intros H Hs. eexists. split; [exact H|]. split; [exact Hs|].
    split; reflexivity.
  Qed.
  Lemma zero_power_solved E g pw x s y s' : zero_power_difference (N := N) E g pw x s = (Ok y, s') ->
    sized g s -> solved_at E g x s'.
  Proof.
    unfold zero_power_difference, sbind, sget, sret. intros H Hs.
    destruct (solve_at_rate E g x s) as [[[]|e] s1] eqn:K; [|discriminate].
    inversion H; subst. eapply solve_at_rate_solved; eauto.
  Qed.
  Lemma zero_torque_solved E g m th x s y s' : zero_torque_difference (N := N) E g m th x s = (Ok y, s') ->
    sized g s -> solved_at E g x s'.
  Proof.
    unfold zero_torque_difference, sbind, sget, sret, slift. intros H Hs.
    destruct (solve_at_rate E g x s) as [[[]|e] s1] eqn:K; [|discriminate].
    destruct (motor_torque _ _ _ _); [|discriminate].
    inversion H; subst. eapply solve_at_rate_solved; eauto.
  Qed.
  Lemma solved_sized E g x s : solved_at E g x s -> sized g s.
  Proof. intros (sa & H & Hs & _). eapply find_coefficients_sized; eauto. Qed.
  Definition near (x n : T) : Prop := n = x \/ nltb (nabs (n - x)%num) rate_error = true.
  Lemma rate_loop_solved E g f fuel :
    (forall x s y s', f x s = (Ok y, s') -> sized g s -> solved_at E g x s') ->
    forall x0 y0 x1 y1 s n s', rate_loop (N := N) fuel f x0 y0 x1 y1 s = (Ok n, s') ->
      solved_at E g x1 s -> exists x, near x n /\ solved_at E g x s'.
  Proof.
    intros Hf. induction fuel as [|fuel IH]; intros x0 y0 x1 y1 s n s' H Hs; cbn [rate_loop] in H; [discriminate|].
    destruct (nltb _ _) eqn:K.
    - unfold sret in H. apply pair_equal_spec in H. destruct H as [H1 H2]. injection H1 as <-. subst s'.
      exists x1. split; [right; exact K|exact Hs].
    - unfold sbind in H. destruct (f _ s) as [[y2|e] s1] eqn:K2; [|discriminate].
      apply IH in H; [exact H|]. eapply Hf; [exact K2|]. eapply solved_sized; eauto.
  Qed.
  Lemma find_rate_solved E g f fuel :
    (forall x s y s', f x s = (Ok y, s') -> sized g s -> solved_at E g x s') ->
    forall s n s', find_rate (N := N) fuel f s = (Ok n, s') -> sized g s ->
      exists x, near x n /\ solved_at E g x s'.
  Proof.
    intros Hf s n s' H Hs. unfold find_rate, sbind, sget in H.
    destruct (f (p_n s) s) as [[y0|e] s1] eqn:K0; [|discriminate].
    pose proof (Hf _ _ _ _ K0 Hs) as S0.
    destruct (nltb _ _).
    - unfold sret in H. apply pair_equal_spec in H. destruct H as [H1 H2]. injection H1 as <-. subst s'.
      exists (p_n s). split; [left; reflexivity|exact S0].
    - destruct (f _ s1) as [[y1|e] s2] eqn:K1; [|discriminate].
      eapply rate_loop_solved in H; eauto. eapply Hf; [exact K1|]. eapply solved_sized; eauto.
  Qed.
  Lemma state_from_power_solved E g s s' : state_from_power (N := N) E g s = (Ok tt, s') -> sized g s ->
    exists x sb, near x (p_n s') /\ solved_at E g x sb /\
      s' = set_op (p_n s') (p_Vinf sb / (p_n s' * pg_d g))%num (p_power sb) (p_throttle sb) sb.
  Proof.
    unfold state_from_power. intros H Hs. unfold sbind at 1 in H. unfold sget at 1 in H.
    unfold sbind in H.
    match type of H with (match ?m s with _ => _ end = _) => set (mm := m) in H end.
    assert (Hm : forall n s1, mm s = (Ok n, s1) -> exists x, near x n /\ solved_at E g x s1).
    { subst mm. intros n s1. destruct (p_throttle s) as [th|].
      - destruct (pg_motor g) as [m|]; [|discriminate].
        unfold sbind, slift. destruct (pydiv _ _); [|discriminate].
        intros K. eapply find_rate_solved; eauto. intros; eapply zero_torque_solved; eauto.
      - destruct (p_power s) as [pw|]; [|discriminate].
        unfold sbind, slift. destruct (pydiv _ _); [|discriminate].
        intros K. eapply find_rate_solved; eauto. intros; eapply zero_power_solved; eauto. }
    destruct (mm s) as [[n|e] s1] eqn:K; [|discriminate].
    destruct (Hm _ _ eq_refl) as (x & Hx & Hb). unfold smod in H.
    apply pair_equal_spec in H. destruct H as [_ H]. subst s'. exists x, s1. auto.
  Qed.

  (** advance angles left by a blade-element solve *)
  Lemma find_coefficients_einf E g s s' : find_coefficients (N := N) E g s = (Ok tt, s') ->
    p_einf s' = advance_angles (p_J s) (pg_stations g).
  Proof.
    unfold find_coefficients. destruct (last_of _) as [sl|]; [|discriminate].
    destruct (find_ei _ _ _ _ _ _ _ _ _) as [[ei clk]|e]; [|discriminate].
    intros H. apply pair_equal_spec in H. destruct H as [_ H]. now subst s'.
  Qed.
End Search.

(** *** C53 *)
Section Induced.
  Context {T : Type} {N : num_ops T}.
  Lemma ei_loop_updates mem k d bl fuel : forall clk i l x c,
    ei_loop (N := N) fuel mem clk k d bl i l = Ok (x, c) ->
    exists l', x = map e_update l' /\
      map (fun e => (e_st e, e_inf e)) l' = map (fun e => (e_st e, e_inf e)) l.
  Proof.
    induction fuel as [|fuel IH]; intros clk i l x c H; cbn [ei_loop] in H; [discriminate|].
    destruct (_ || _)%bool.
    - injection H as <- _. exists l. auto.
    - apply IH in H. destruct H as (l' & E1 & E2). exists l'. split; [exact E1|]. rewrite E2.
      set (y := ei_function _ _ _ _ _).
      assert (Hy : List.length y = List.length l).
      { unfold y. rewrite ei_function_length. apply map_length. }
      clearbody y. clear E2. revert y Hy. induction l as [|e l IHl]; intros [|b y] Hy; try discriminate; [reflexivity|].
      cbn [map2 map e_next e_st e_inf]. f_equal. apply IHl. cbn in Hy. lia.
  Qed.
  Lemma esteps_keys (ss : list (station T)) : forall einf x0 x1 y0 y1,
    List.length einf = List.length ss -> List.length x0 = List.length ss -> List.length x1 = List.length ss ->
    List.length y0 = List.length ss -> List.length y1 = List.length ss ->
    map (fun e => (e_st e, e_inf e)) (esteps ss einf x0 x1 y0 y1) = combine ss einf.
  Proof.
    induction ss as [|s ss IH]; intros [|a einf] [|b x0] [|c x1] [|d y0] [|e y1];
    cbn; intros; try discriminate; auto. f_equal. apply IH; lia.
  Qed.
  Lemma find_coefficients_updates E g s s' : find_coefficients (N := N) E g s = (Ok tt, s') -> sized g s ->
    exists l, p_ei s' = map e_update l /\
      map (fun e => (e_st e, e_inf e)) l = combine (pg_stations g) (p_einf s').
  Proof.
    unfold find_coefficients, sized. intros H Hs.
    destruct (last_of (pg_stations g)) as [sl|]; [|discriminate].
    destruct (find_ei _ _ _ _ _ _ _ _ _) as [[ei clk]|e] eqn:K; [|discriminate].
    apply pair_equal_spec in H. destruct H as [_ H]. subst s'. cbn [p_ei p_einf set_coeffs].
    unfold find_ei in K. apply ei_loop_updates in K. destruct K as (l & K1 & K2).
    exists l. split; [exact K1|]. rewrite K2.
    set (einf := advance_angles (p_J s) (pg_stations g)).
    assert (He : List.length einf = List.length (pg_stations g)) by (unfold einf, advance_angles; apply map_length).
    pose proof (first_guess_length _ _ _ He Hs) as Hf.
    apply esteps_keys; rewrite ?ei_function_length, ?combine_length, ?map_length, ?combine_length; lia.
  Qed.
  Lemma run_prop_updates E cg aero ps g s q s' : run_prop (N := N) E cg aero ps g s = (Ok q, s') -> sized g s ->
    exists l, p_ei s' = map e_update l /\
      map (fun e => (e_st e, e_inf e)) l = combine (pg_stations g) (p_einf s').
  Proof.
    intros H Hs. apply run_prop_steps in H. destruct H as (s1 & s2 & s3 & K1 & K2 & K3 & _ & ->).
    assert (H1 : sized g s1).
    { revert K1 Hs. unfold p_set_aero. destruct (opt_truthy aero_truthy aero) as [a|].
      - destruct (dget (an a) "V_mag"), (dget (an a) "rho"); try discriminate.
        unfold smod. intros H. inversion H. auto.
      - unfold smod. intros H. inversion H. auto. }
    pose proof (keeps_set_prop _ _ _ _ _ _ K2 H1) as H2.
    assert (G : exists l, p_ei s3 = map e_update l /\
      map (fun e => (e_st e, e_inf e)) l = combine (pg_stations g) (p_einf s3)).
    { destruct (p_power s2), (p_throttle s2);
      try (apply state_from_power_solved in K3; [|exact H2]; destruct K3 as (x & sb & _ & (sa & F & S & _) & Es); rewrite Es;
           exact (find_coefficients_updates _ _ _ _ F S)).
      eapply find_coefficients_updates; eauto. }
    destruct q as [[[F M] Th] l0]. exact G.
  Qed.
End Induced.

Local Open Scope R_scope.

Lemma induced_correct E cg aero ps g s q s' :
  run_prop (T := R) E cg aero ps g s = (Ok q, s') -> sized g s ->
  Forall2 (fun b x => Rabs x < 1 /\
             (z_beta (fst b) <> snd b -> x = 0 \/ sign x = sign (z_beta (fst b) - snd b)))
          (combine (pg_stations g) (p_einf s')) (p_ei s').
Proof.
  intros H Hs. destruct (run_prop_updates _ _ _ _ _ _ _ _ H Hs) as (l & E1 & E2).
  rewrite E1, <- E2. clear. induction l as [|e l IH]; constructor; [|exact IH].
  cbn [fst snd]. apply correct_ei_spec.
Qed.

(** *** C50 *)
Lemma pydiv_ok (a b x : R) : pydiv a b = Ok x -> b <> 0 /\ x = a / b.
Proof.
  unfold pydiv. rnum. destruct (Reqb b 0) eqn:K; [discriminate|]. intros H. injection H as <-.
  apply Reqb_false in K. auto.
Qed.

(** Operating point chosen by a setting, given the airspeed [V] and the diameter [d]. *)
Definition op_point (V d : R) (v : option (pval R)) (n J : R) (pw th : option R) : Prop :=
  match v with
  | None => J = /2 /\ d <> 0 /\ n = V / (d * / 2) /\ pw = None /\ th = None
  | Some (PNum x) => J = /2 /\ d <> 0 /\ n = V / (d * / 2) /\ pw = None /\ th = None
  | Some (PDict []) => J = /2 /\ d <> 0 /\ n = V / (d * / 2) /\ pw = None /\ th = None
  | Some (PDict l) =>
      match dget l "J", dget l "rot_per_sec", dget l "brake_power", dget l "electric_throttle" with
      | Some (PNum j), on, _, _ =>
          J = j /\ pw = None /\ th = None /\
          ((j <> 0 /\ V <> 0 /\ d <> 0 /\ n = V / (d * j)) \/
           ((j = 0 \/ V = 0) /\ on = Some (PNum n)))
      | None, Some (PNum m), _, _ => n = m /\ m <> 0 /\ d <> 0 /\ J = V / (n * d) /\ pw = None /\ th = None
      | None, None, Some (PNum p), _ => pw = Some p /\ th = None
      | None, None, None, Some (PNum t) => pw = None /\ th = Some t
      | _, _, _, _ => False
      end
  end.
Lemma half : ndec 5 1 = / 2 :> R.
Proof. rnum. unfold Rdec. simpl. lra. Qed.
Lemma default_op_ok d s s' : default_op (T := R) d s = (Ok tt, s') ->
  flow_of s' = flow_of s /\
  (p_J s' = / 2 /\ d <> 0 /\ p_n s' = p_Vinf s' / (d * / 2) /\ p_power s' = None /\ p_throttle s' = None).
Proof.
  unfold default_op, sbind, sget, slift. rewrite half.
  destruct (pydiv (p_Vinf s) (d * / 2)%num) as [n|e] eqn:K; [|discriminate].
  unfold smod. intros H. apply pair_equal_spec in H. destruct H as [_ H]. subst s'.
  apply pydiv_ok in K. destruct K as [K ->]. split; [reflexivity|].
  repeat split; try reflexivity. intros ->. apply K. rnum. ring.
Qed.
Lemma p_set_prop_point d l s s' : p_set_prop (T := R) d l s = (Ok tt, s') ->
  flow_of s' = flow_of s /\ op_point (p_Vinf s') d l (p_n s') (p_J s') (p_power s') (p_throttle s').
Proof.
  unfold p_set_prop. intros H.
  destruct l as [[x|[|e l]]|]; try (apply default_op_ok in H; exact H).
  - destruct (ntruthy x); [unfold sbind, smod, sraise in H; discriminate|]. apply default_op_ok in H. exact H.
  - unfold op_point. set (dd := e :: l) in *. clearbody dd. unfold sbind, smod in H.
    destruct (dget dd "J") as [[j|?]|].
    + unfold slift, vnum, sget in H. destruct ((j =? n0)%num || (_ =? n0)%num)%bool eqn:K.
      * rnum. apply orb_true_iff in K. rewrite !Reqb_true in K. cbn [p_Vinf set_op] in K.
        destruct (dget dd "rot_per_sec") as [[m|?]|]; try discriminate.
        apply pair_equal_spec in H. destruct H as [_ H]. subst s'. split; [reflexivity|].
        repeat split; auto.
      * rnum. apply orb_false_iff in K. rewrite !Reqb_false in K. cbn [p_Vinf set_op] in K.
        destruct (pydiv _ _) as [n|e1] eqn:K1; [|discriminate].
        apply pydiv_ok in K1. destruct K1 as [K1 K2]. rnum.
        apply pair_equal_spec in H. destruct H as [_ H]. subst s'. split; [reflexivity|].
        repeat split; auto. left. repeat split; try tauto; auto. intros ->. apply K1. ring.
    + discriminate.
    + destruct (dget dd "rot_per_sec") as [[m|?]|]; [|discriminate|].
      * unfold slift, vnum, sget in H. destruct (pydiv _ _) as [n|e1] eqn:K1; [|discriminate].
        apply pydiv_ok in K1. destruct K1 as [K1 K2].
        apply pair_equal_spec in H. destruct H as [_ H]. subst s'. split; [reflexivity|]. rnum.
        repeat split; auto; intros ->; apply K1; ring.
      * destruct (dget dd "brake_power") as [[m|?]|]; [|discriminate|].
        { apply pair_equal_spec in H. destruct H as [_ H]. subst s'. split; [reflexivity|]. repeat split; reflexivity. }
        destruct (dget dd "electric_throttle") as [[m|?]|]; try discriminate.
        apply pair_equal_spec in H. destruct H as [_ H]. subst s'. split; [reflexivity|]. repeat split; reflexivity.
Qed.

(** flow *)
Lemma p_set_aero_flow (a : aero_state R) V s s' : p_set_aero (Some a) s = (Ok tt, s') ->
  dget (an a) "V_mag" = Some V ->
  exists rho, dget (an a) "rho" = Some rho /\
    flow_of s' = (freestream 1 (entry (an a) "alpha") (entry (an a) "beta"), rho, V) /\ p_ei s' = p_ei s.
Proof.
  unfold p_set_aero, opt_truthy. intros H HV.
  replace (aero_truthy a) with true in H.
  - rewrite HV in H. destruct (dget (an a) "rho") as [rho|]; [|discriminate].
    unfold smod in H. apply pair_equal_spec in H. destruct H as [_ H]. subst s'.
    exists rho. split; [reflexivity|]. rewrite !dgetd_entry. split; reflexivity.
  - symmetry. unfold aero_truthy. apply orb_true_iff. left. unfold dtruthy.
    destruct (an a) as [|e l]; [discriminate HV|reflexivity].
Qed.

Lemma rate_error_small : rate_error (T := R) = / 10 ^ 14.
Proof. unfold rate_error. rnum. unfold Rdec. simpl. lra. Qed.

Lemma run_prop_point E cg aero ps g s q s' :
  run_prop (T := R) E cg aero ps g s = (Ok q, s') ->
  exists n J pw th,
    op_point (p_Vinf s') (pg_d g) (local_state ps (pg_name g)) n J pw th /\
    (pw = None -> th = None -> p_n s' = n /\ p_J s' = J) /\
    (pw <> None \/ th <> None -> p_J s' = p_Vinf s' / (p_n s' * pg_d g)).
Proof.
  intros H. apply run_prop_steps in H. destruct H as (s1 & s2 & s3 & K1 & K2 & K3 & _ & ->).
  apply p_set_prop_point in K2. destruct K2 as [F2 P2].
  apply solved_core in K3. destruct K3 as (C1 & C2 & C3).
  assert (G : forall s4, core s4 = core s3 -> exists n J pw th,
    op_point (p_Vinf s4) (pg_d g) (local_state ps (pg_name g)) n J pw th /\
    (pw = None -> th = None -> p_n s4 = n /\ p_J s4 = J) /\
    (pw <> None \/ th <> None -> p_J s4 = p_Vinf s4 / (p_n s4 * pg_d g))).
  { intros s4 H4. unfold core in H4. unfold flow_of in C3, F2.
    assert (EV : p_Vinf s4 = p_Vinf s2) by congruence.
    exists (p_n s2), (p_J s2), (p_power s2), (p_throttle s2). rewrite EV. split; [exact P2|]. split.
    - intros A B. specialize (C1 A B). unfold core in C1. split; congruence.
    - intros A. specialize (C2 A). rnum. rewrite <- EV.
      replace (p_J s4) with (p_J s3) by congruence. rewrite C2.
      replace (p_Vinf s4) with (p_Vinf s3) by congruence. now replace (p_n s4) with (p_n s3) by congruence. }
  apply G. rewrite set_forces_core. apply find_Vi_core.
Qed.

(** rate of the last blade-element solve *)
Lemma run_prop_search E cg aero ps g s q s' :
  run_prop (T := R) E cg aero ps g s = (Ok q, s') -> sized g s ->
  exists n, Rabs (p_n s' - n) < / 10 ^ 14 /\
    (p_einf s' = map (fun z => Ratan2 (p_J s') (PI * z_zeta z)) (pg_stations g) \/
     p_einf s' = map (fun z => Ratan2 (p_Vinf s' / (n * pg_d g)) (PI * z_zeta z)) (pg_stations g)).
Proof.
  intros H Hs. apply run_prop_steps in H. destruct H as (s1 & s2 & s3 & K1 & K2 & K3 & _ & ->).
  assert (H1 : sized g s1).
  { revert K1 Hs. unfold p_set_aero. destruct (opt_truthy aero_truthy aero) as [a|].
    - destruct (dget (an a) "V_mag"), (dget (an a) "rho"); try discriminate.
      unfold smod. intros H. inversion H. auto.
    - unfold smod. intros H. inversion H. auto. }
  pose proof (keeps_set_prop _ _ _ _ _ _ K2 H1) as H2.
  assert (P14 : 0 < / 10 ^ 14) by (apply Rinv_0_lt_compat; apply pow_lt; lra).
  assert (G : exists n, Rabs (p_n s3 - n) < / 10 ^ 14 /\
    (p_einf s3 = map (fun z => Ratan2 (p_J s3) (PI * z_zeta z)) (pg_stations g) \/
     p_einf s3 = map (fun z => Ratan2 (p_Vinf s3 / (n * pg_d g)) (PI * z_zeta z)) (pg_stations g))).
  { destruct (p_power s2), (p_throttle s2);
    try (apply state_from_power_solved in K3; [|exact H2]; destruct K3 as (x & sb & Hn & (sa & F & S & En & EJ) & Es);
         exists x; split;
         [ destruct Hn as [->|Hn];
           [ rewrite Rminus_diag_eq by reflexivity; rewrite Rabs_R0; exact P14
           | rnum; apply Rltb_true in Hn; rewrite rate_error_small in Hn; exact Hn ]
         | right; pose proof (find_coefficients_einf _ _ _ _ F) as Ee;
           pose proof (find_coefficients_core _ _ _ _ _ F) as Ec; unfold core in Ec;
           rewrite Es; cbn [p_einf set_op p_Vinf]; rewrite Ee, EJ;
           replace (p_Vinf sb) with (p_Vinf sa) by congruence; reflexivity ]).
    exists (p_n s3). split.
    - rewrite Rminus_diag_eq by reflexivity. rewrite Rabs_R0. exact P14.
    - left. rewrite (find_coefficients_einf _ _ _ _ K3).
      pose proof (find_coefficients_core _ _ _ _ _ K3) as Ec. unfold core in Ec.
      replace (p_J s3) with (p_J s2) by congruence. reflexivity. }
  destruct q as [[[F M] Th] l0]. exact G.
Qed.
