(** State and control-flow facts of the propeller model, for every number type. *)
From Coq Require Import ZArith String Bool Arith Lia List.
From Verif Require Import Base Num Geometry Grid LLModel PropModel Spec_Prop.
Import ListNotations.

Section Generic.
  Context {T : Type} {N : num_ops T}.

  (** operating point and flow *)
  Definition core (s : pstate T) := (p_n s, p_J s, p_power s, p_throttle s, p_v s, p_rho s, p_Vinf s).
  Definition flow_of (s : pstate T) := (p_v s, p_rho s, p_Vinf s).

  Lemma find_coefficients_core E g s s' r : find_coefficients E g s = (r, s') -> core s' = core s.
  Proof.
    unfold find_coefficients. intros H.
    destruct (last_of (pg_stations g)) as [sl|]; [|inversion H; reflexivity].
    destruct (find_ei _ _ _ _ _ _ _ _ _) as [[ei clk]|e]; inversion H; reflexivity.
  Qed.
  Lemma solve_at_rate_core E g n s s' r : solve_at_rate E g n s = (r, s') ->
    core s' = (n, (p_Vinf s / (n * pg_d g))%num, p_power s, p_throttle s, p_v s, p_rho s, p_Vinf s).
  Proof.
    unfold solve_at_rate, sbind, smod. intros H. apply find_coefficients_core in H. exact H.
  Qed.
  Lemma zero_power_core E g pw n s s' r : zero_power_difference E g pw n s = (r, s') ->
    core s' = (n, (p_Vinf s / (n * pg_d g))%num, p_power s, p_throttle s, p_v s, p_rho s, p_Vinf s).
  Proof.
    unfold zero_power_difference, sbind, sget, sret. intros H.
    destruct (solve_at_rate E g n s) as [[u|e] s1] eqn:K; apply solve_at_rate_core in K;
    inversion H; subst; exact K.
  Qed.
  Lemma zero_torque_core E g m th n s s' r : zero_torque_difference E g m th n s = (r, s') ->
    core s' = (n, (p_Vinf s / (n * pg_d g))%num, p_power s, p_throttle s, p_v s, p_rho s, p_Vinf s).
  Proof.
    unfold zero_torque_difference, sbind, sget, sret, slift. intros H.
    destruct (solve_at_rate E g n s) as [[u|e] s1] eqn:K; apply solve_at_rate_core in K.
    - destruct (motor_torque g m th (p_n s1)); inversion H; subst; exact K.
    - inversion H; subst; exact K.
  Qed.

  Definition keeps_flow {A} (m : st (pstate T) A) : Prop :=
    forall s r s', m s = (r, s') ->
      (p_power s', p_throttle s', flow_of s') = (p_power s, p_throttle s, flow_of s).
  Lemma core_flow n J p th v r V s : core s = (n, J, p, th, v, r, V) ->
    (p_power s, p_throttle s, flow_of s) = (p, th, (v, r, V)).
  Proof. unfold core, flow_of. intros H. inversion H. reflexivity. Qed.
  Lemma zero_power_keeps E g pw n : keeps_flow (zero_power_difference E g pw n).
  Proof. intros s r s' H. apply zero_power_core, core_flow in H. exact H. Qed.
  Lemma zero_torque_keeps E g m th n : keeps_flow (zero_torque_difference E g m th n).
  Proof. intros s r s' H. apply zero_torque_core, core_flow in H. exact H. Qed.

  Lemma rate_loop_keeps f fuel : (forall n, keeps_flow (f n)) ->
    forall x0 y0 x1 y1, keeps_flow (rate_loop (N := N) fuel f x0 y0 x1 y1).
  Proof.
    intros Hf. induction fuel as [|fuel IH]; intros x0 y0 x1 y1 s r s' H; cbn [rate_loop] in H.
    - inversion H; reflexivity.
    - destruct (nltb _ _); [inversion H; reflexivity|].
      unfold sbind in H. destruct (f _ s) as [[y2|e] s1] eqn:K.
      + apply IH in H. apply Hf in K. now rewrite H.
      + apply Hf in K. inversion H; subst. exact K.
  Qed.
  Lemma find_rate_keeps f fuel : (forall n, keeps_flow (f n)) -> keeps_flow (find_rate (N := N) fuel f).
  Proof.
    intros Hf s r s' H. unfold find_rate, sbind, sget in H.
    destruct (f (p_n s) s) as [[y0|e] s1] eqn:K0; pose proof (Hf _ _ _ _ K0) as E0;
    [|inversion H; subst; exact E0].
    destruct (nltb _ _); [inversion H; subst; exact E0|].
    destruct (f _ s1) as [[y1|e] s2] eqn:K1; pose proof (Hf _ _ _ _ K1) as E1;
    [|inversion H; subst; now rewrite E1].
    eapply rate_loop_keeps in H; [|exact Hf]. now rewrite H, E1.
  Qed.

  Lemma check_keeps {A B} (r : res A) (m : st (pstate T) B) : keeps_flow m -> keeps_flow (sbind (slift r) (fun _ => m)).
  Proof. intros Hm s q s' H. unfold sbind, slift in H. destruct r; [now apply Hm in H|]. inversion H; reflexivity. Qed.
  Lemma state_from_power_ok E g s s' : state_from_power E g s = (Ok tt, s') ->
    p_J s' = (p_Vinf s' / (p_n s' * pg_d g))%num /\ flow_of s' = flow_of s.
  Proof.
    unfold state_from_power. intros H. unfold sbind at 1 in H. unfold sget at 1 in H.
    unfold sbind in H.
    match type of H with (match ?m s with _ => _ end = _) => set (mm := m) in H end.
    assert (Hk : keeps_flow mm).
    { subst mm. destruct (p_throttle s) as [th|].
      - destruct (pg_motor g) as [m|].
        + apply check_keeps, find_rate_keeps. intros n. apply zero_torque_keeps.
        + intros a b c K. inversion K; reflexivity.
      - destruct (p_power s) as [pw|].
        + apply check_keeps, find_rate_keeps. intros n. apply zero_power_keeps.
        + intros a b c K. inversion K; reflexivity. }
    destruct (mm s) as [[n|e] s1] eqn:K; [|discriminate].
    apply Hk in K. unfold smod in H. inversion H; subst s'. split; [reflexivity|].
    apply (f_equal snd) in K. exact K.
  Qed.

  (** The four steps of a returning propeller run. *)
  Lemma run_prop_steps E cg aero ps g s q s' : run_prop E cg aero ps g s = (Ok q, s') ->
    exists s1 s2 s3,
      p_set_aero aero s = (Ok tt, s1) /\
      p_set_prop (pg_d g) (local_state ps (pg_name g)) s1 = (Ok tt, s2) /\
      (match p_power s2, p_throttle s2 with
       | None, None => find_coefficients E g | _, _ => state_from_power E g end) s2 = (Ok tt, s3) /\
      resolve g cg (find_Vi (pg_stations g) s3) = Ok q /\
      s' = set_forces q (find_Vi (pg_stations g) s3).
  Proof.
    unfold run_prop. intros H. unfold sbind in H.
    destruct (p_set_aero aero s) as [[[]|e] s1] eqn:K1; [|discriminate].
    destruct (p_set_prop _ _ s1) as [[[]|e] s2] eqn:K2; [|discriminate].
    unfold p_calc_forces, sbind, sget in H.
    match type of H with context [(match ?m s2 with _ => _ end)] => destruct (m s2) as [[[]|e] s3] eqn:K3 end;
    [|discriminate].
    unfold smod, slift, sret in H.
    destruct (resolve g cg (find_Vi (pg_stations g) s3)) as [q0|e] eqn:K4; [|discriminate].
    apply pair_equal_spec in H. destruct H as [H1 H2]. injection H1 as H1. subst q0.
    exists s1, s2, s3. repeat split; auto.
  Qed.

  Lemma set_forces_core q s : core (set_forces q s) = core s.
  Proof. destruct q as [[[F M] Th] l]. reflexivity. Qed.
  Lemma find_Vi_core ss s : core (find_Vi (N := N) ss s) = core s.
  Proof. reflexivity. Qed.
  Lemma solved_core E g s s' :
    (match p_power s, p_throttle s with
     | None, None => find_coefficients E g | _, _ => state_from_power E g end) s = (Ok tt, s') ->
    (p_power s = None -> p_throttle s = None -> core s' = core s) /\
    (p_power s <> None \/ p_throttle s <> None ->
     p_J s' = (p_Vinf s' / (p_n s' * pg_d g))%num) /\ flow_of s' = flow_of s.
  Proof.
    intros H. destruct (p_power s) as [pw|] eqn:E1, (p_throttle s) as [th|] eqn:E2;
    try (apply state_from_power_ok in H; destruct H as [H1 H2]; split; [congruence|auto]).
    pose proof (find_coefficients_core _ _ _ _ _ H) as HC. split; [auto|].
    split; [intros [?|?]; congruence|]. unfold core in HC. unfold flow_of. congruence.
  Qed.

  (** *** Selection of the state (C49) *)
  Lemma p_set_prop_same d a b : same_setting a b -> p_set_prop (N := N) d a = p_set_prop d b.
  Proof.
    intros [->|[[Ha Hb]|(l & l' & -> & -> & Hl & Hl' & Hk)]]; [reflexivity| |].
    - assert (K : forall v, empty_setting (N := N) v -> p_set_prop (N := N) d v = default_op d).
      { intros [[x|l]|]; cbn; intros Hv; [now rewrite Hv|now subst l|reflexivity]. }
      now rewrite !K.
    - destruct l as [|e0 l0]; [congruence|]. destruct l' as [|e1 l1]; [congruence|].
      unfold p_set_prop.
      rewrite (Hk "J"%string), (Hk "rot_per_sec"%string), (Hk "brake_power"%string),
              (Hk "electric_throttle"%string) by (cbn; tauto). reflexivity.
  Qed.
  Lemma local_setting ps name : same_setting (N := N) (local_state ps name) (setting_of ps name).
  Proof.
    destruct ps as [[|e d]|]; cbn [local_state setting_of].
    - right. left. split; exact eq_refl || exact I.
    - left. reflexivity.
    - left. reflexivity.
  Qed.
  Lemma same_setting_sym a b : same_setting (N := N) a b -> same_setting (N := N) b a.
  Proof.
    intros [->|[[H1 H2]|(l & l' & H1 & H2 & H3 & H4 & H5)]]; [now left|right; left; auto|].
    right. right. exists l', l. repeat split; auto. intros key Hk. symmetry. auto.
  Qed.
  Lemma run_prop_same E cg aero ps ps' g :
    same_setting (N := N) (setting_of ps (pg_name g)) (setting_of ps' (pg_name g)) ->
    forall s, run_prop E cg aero ps g s = run_prop E cg aero ps' g s.
  Proof.
    intros H s. unfold run_prop.
    rewrite (p_set_prop_same (pg_d g) _ _ (local_setting ps (pg_name g))).
    rewrite (p_set_prop_same (pg_d g) _ _ (local_setting ps' (pg_name g))).
    now rewrite (p_set_prop_same (pg_d g) _ _ H).
  Qed.
  Lemma run_props_same E cg aero ps ps' gs :
    (forall g, In g gs -> same_setting (N := N) (setting_of ps (pg_name g)) (setting_of ps' (pg_name g))) ->
    forall ss, run_props E cg aero ps gs ss = run_props E cg aero ps' gs ss.
  Proof.
    induction gs as [|g gs IH]; intros H ss; [reflexivity|].
    destruct ss as [|s ss]; [reflexivity|]. cbn [run_props].
    rewrite (run_prop_same E cg aero ps ps' g (H g (or_introl eq_refl)) s).
    rewrite (IH (fun g' Hg => H g' (or_intror Hg)) ss). reflexivity.
  Qed.
  Lemma C49_lemma E cg n aero ps ps' gs ss :
    (forall g, In g gs -> same_setting (N := N) (setting_of ps (pg_name g)) (setting_of ps' (pg_name g))) ->
    props_solve E cg n aero ps gs ss = props_solve E cg n aero ps' gs ss.
  Proof.
    intros H. unfold props_solve, calc_forces, sbind. now rewrite (run_props_same E cg aero ps ps' gs H ss).
  Qed.

  (** *** Totals (C48) *)
  Lemma run_props_states E cg aero ps gs : forall ss qs ss',
    run_props E cg aero ps gs ss = (Ok qs, ss') -> List.length ss = List.length gs ->
    List.length ss' = List.length gs /\
    qs = map (fun s => (p_F s, p_M s, p_T s, p_l s)) ss' /\
    Forall2 (fun g s' => exists s, run_prop E cg aero ps g s = (Ok (p_F s', p_M s', p_T s', p_l s'), s')) gs ss'.
  Proof.
    induction gs as [|g gs IH]; intros ss qs ss' H Hl; destruct ss as [|s ss]; try discriminate Hl.
    - inversion H; subst. repeat split; constructor.
    - cbn [run_props] in H. destruct (run_prop E cg aero ps g s) as [[q|e] s1] eqn:K; [|discriminate].
      destruct (run_props E cg aero ps gs ss) as [[qs1|e] ss1] eqn:K1; [|discriminate].
      injection H as H1 H2. subst qs ss'. cbn in Hl. injection Hl as Hl.
      destruct (IH _ _ _ K1 Hl) as (A & B & C). cbn [List.length map].
      assert (Eq : q = (p_F s1, p_M s1, p_T s1, p_l s1)).
      { destruct (run_prop_steps _ _ _ _ _ _ _ _ K) as (a & b & c & _ & _ & _ & _ & E5).
        subst s1. destruct q as [[[F M] Th] l]. reflexivity. }
      split; [now rewrite A|]. split; [now rewrite <- B, Eq|].
      constructor; [|exact C]. exists s. now rewrite <- Eq.
  Qed.

  (** *** Lengths *)
  Definition sized (g : pgeom T) (s : pstate T) : Prop := List.length (p_ei s) = List.length (pg_stations g).
End Generic.
