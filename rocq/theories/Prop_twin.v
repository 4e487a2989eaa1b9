(** Propellers that are alike but for place, direction and sense of rotation (C85): what a
    call leaves in them does not depend on the direction of the flow. *)
From Coq Require Import Reals ZArith String Bool Arith Lia Lra List Permutation.
From Verif Require Import Base Num RVec Geometry Api Grid LLModel PropModel Spec_Grid Spec_Geom Spec_LL LL_state LL_R
  Spec_Mirror MU Spec_MirrorProp Prop_mirror.
Import ListNotations.
Local Open Scope string_scope.
Local Open Scope R_scope.

(** the state with other direction of flow, torque, force and moment *)
Definition prel (v : vec3 R) (l : R) (F M : vec3 R) (s : pst) : pst :=
  MkPS (p_clock s) (p_ei s) (p_n s) (p_J s) (p_power s) (p_throttle s) v (p_rho s) (p_Vinf s)
       (p_einf s) (p_alpha s) (p_CL s) (p_CD s) (p_CT s) (p_Cl s) (p_CNa s) (p_Cna s) (p_CP s) (p_eff s)
       (p_Vi s) (p_Vxi s) (p_Vti s) (p_T s) l F M.
Definition scrub : pst -> pst := prel vzero 0 vzero vzero.
Lemma prel_own s : prel (p_v s) (p_l s) (p_F s) (p_M s) s = s.
Proof. destruct s; reflexivity. Qed.
Lemma scrub_prel s s' : scrub s' = scrub s <-> s' = prel (p_v s') (p_l s') (p_F s') (p_M s') s.
Proof.
  split.
  - intros H. rewrite <- (prel_own s') at 1. change (prel (p_v s') (p_l s') (p_F s') (p_M s') (scrub s') = prel (p_v s') (p_l s') (p_F s') (p_M s') (scrub s)).
    now rewrite H.
  - intros ->. reflexivity.
Qed.
Record gtwin (E : penv R) (g g' : pgeom R) : Prop := {
  gt_mem : pe_mem E (pg_name g') = pe_mem E (pg_name g);
  gt_d : pg_d g' = pg_d g;
  gt_stations : pg_stations g' = pg_stations g;
  gt_k : pg_k g' = pg_k g;
  gt_motor : pg_motor g' = pg_motor g;
  gt_units : pg_units g' = pg_units g
}.
Lemma gtwin_refl E g : gtwin E g g.
Proof. split; reflexivity. Qed.
Lemma gmir_twin E pts g g' : gmir E pts g g' -> gtwin E g g'.
Proof. intros []. split; assumption. Qed.

Section Phi.
  Variables (v0 : vec3 R) (l0 : R) (F0 M0 : vec3 R).
  Let phi := prel v0 l0 F0 M0.
(** *** Programs that do the same whatever the four values are *)
Definition qui {A} (f : A -> A) (p p' : st pst A) : Prop :=
  forall s, p' (phi s) = (match fst (p s) with Ok a => Ok (f a) | Err e => Err e end, phi (snd (p s))).
Local Notation qui1 := (qui (fun x => x)).
Lemma qui_bind {A B} (f : A -> A) (h : B -> B) p p' (c c' : A -> st pst B) :
  qui f p p' -> (forall a, qui h (c a) (c' (f a))) -> qui h (sbind p c) (sbind p' c').
Proof.
  intros P C s. unfold sbind. rewrite (P s). destruct (p s) as [[a|e] t]; cbn [fst snd]; [apply C|reflexivity].
Qed.
Lemma qui_ret {A} (f : A -> A) a : qui f (sret a) (sret (f a)).
Proof. intros s. reflexivity. Qed.
Lemma qui_raise {A} (f : A -> A) e : qui f (sraise e) (sraise e).
Proof. intros s. reflexivity. Qed.
Lemma qui_lift {A} (r : res A) : qui1 (slift r) (slift r).
Proof. intros s. destruct r; reflexivity. Qed.
Lemma qui_mod f f' : (forall s, f' (phi s) = phi (f s)) -> qui1 (smod f) (smod f').
Proof. intros K s. unfold smod. cbn [fst snd]. now rewrite K. Qed.
Lemma qui_get {A} (f : pst -> A) : (forall s, f (phi s) = f s) -> qui1 (sget f) (sget f).
Proof. intros K s. unfold sget. cbn [fst snd]. now rewrite K. Qed.

  Variable E : penv R.
  Variables g g' : pgeom R.
  Hypothesis G : gtwin E g g'.
  Lemma find_coefficients_qui : qui1 (find_coefficients E g) (find_coefficients E g').
  Proof.
    destruct G as [gt_mem_ gt_d_ gt_stations_ gt_k_ gt_motor_ gt_units_]. intros s. unfold find_coefficients. rewrite gt_stations_, gt_k_, gt_d_, gt_mem_.
    change (p_J (phi s)) with (p_J s). change (p_ei (phi s)) with (p_ei s). change (p_clock (phi s)) with (p_clock s). cbv zeta.
    destruct (last_of (pg_stations g)) as [sl|]; [|reflexivity].
    destruct (find_ei _ _ _ _ _ _ _ _ _) as [[ei clk]|e]; reflexivity.
  Qed.
  Lemma set_op_mir n J p t s : set_op n J p t (phi s) = phi (set_op n J p t s).
  Proof. reflexivity. Qed.
  Lemma solve_at_rate_qui n : qui1 (solve_at_rate E g n) (solve_at_rate E g' n).
  Proof.
    unfold solve_at_rate. eapply qui_bind; [|intros; apply find_coefficients_qui].
    apply qui_mod. intros s. rewrite (gt_d _ _ _ G). reflexivity.
  Qed.
  Lemma sget_all {B} (h : B -> B) (c c' : pst -> st pst B) :
    (forall s, c' (phi s) (phi s) = (match fst (c s s) with Ok a => Ok (h a) | Err e => Err e end, phi (snd (c s s)))) ->
    qui h (sbind (sget (fun s => s)) c) (sbind (sget (fun s => s)) c').
  Proof. intros K s. unfold sbind, sget. apply K. Qed.
  Lemma zero_power_qui pw n : qui1 (zero_power_difference E g pw n) (zero_power_difference E g' pw n).
  Proof.
    unfold zero_power_difference. eapply qui_bind; [apply solve_at_rate_qui|]. intros [].
    apply sget_all. intros s. rewrite (gt_d _ _ _ G). reflexivity.
  Qed.
  Lemma zero_torque_qui mo th n : qui1 (zero_torque_difference E g mo th n) (zero_torque_difference E g' mo th n).
  Proof.
    unfold zero_torque_difference. eapply qui_bind; [apply solve_at_rate_qui|]. intros [].
    apply sget_all. intros s. unfold motor_torque. rewrite (gt_d _ _ _ G), (gt_units _ _ _ G).
    change (p_n (phi s)) with (p_n s). unfold sbind, slift. destruct (pg_units g); [|reflexivity].
    destruct (String.eqb _ _); reflexivity.
  Qed.
  Lemma rate_loop_qui f f' : (forall x, qui1 (f x) (f' x)) -> forall fuel x0 y0 x1 y1,
    qui1 (rate_loop fuel f x0 y0 x1 y1) (rate_loop fuel f' x0 y0 x1 y1).
  Proof.
    intros K. induction fuel as [|fuel IH]; intros; cbn [rate_loop]; [apply qui_raise|]. cbv zeta.
    destruct (nltb _ _); [apply (qui_ret (fun x => x))|]. eapply qui_bind; [apply K|]. intros y. apply IH.
  Qed.
  Lemma find_rate_qui fuel f f' : (forall x, qui1 (f x) (f' x)) -> qui1 (find_rate fuel f) (find_rate fuel f').
  Proof.
    intros K. unfold find_rate. eapply qui_bind; [apply qui_get; reflexivity|]. intros x0. cbv zeta.
    eapply qui_bind; [apply K|]. intros y0. cbv beta. destruct (nltb _ _); [apply (qui_ret (fun x => x))|].
    eapply qui_bind; [apply K|]. intros y1. now apply rate_loop_qui.
  Qed.
  Lemma state_from_power_qui : qui1 (state_from_power E g) (state_from_power E g').
  Proof.
    unfold state_from_power.
    assert (Hm : forall n, qui1 (smod (fun s => set_op n (p_Vinf s / (n * pg_d g)) (p_power s) (p_throttle s) s))
                                 (smod (fun s => set_op n (p_Vinf s / (n * pg_d g')) (p_power s) (p_throttle s) s))).
    { intros n. apply qui_mod. intros s. rewrite (gt_d _ _ _ G). reflexivity. }
    intros s. unfold sbind at 1 3. unfold sget. cbn [fst snd].
    change (p_throttle (phi s)) with (p_throttle s). change (p_power (phi s)) with (p_power s).
    change (p_Vinf (phi s)) with (p_Vinf s). change (p_n (phi s)) with (p_n s). rewrite (gt_motor _ _ _ G), (gt_d _ _ _ G).
    rewrite (gt_d _ _ _ G) in Hm.
    refine (qui_bind (fun x => x) (fun x => x) _ _ _ _ _ Hm s).
    destruct (p_throttle s) as [th|].
    - destruct (pg_motor g) as [mo|]; [|apply qui_raise].
      eapply qui_bind; [apply qui_lift|]. intros _. apply find_rate_qui. intros; apply zero_torque_qui.
    - destruct (p_power s) as [pw|]; [|apply qui_raise].
      eapply qui_bind; [apply qui_lift|]. intros _. apply find_rate_qui. intros; apply zero_power_qui.
  Qed.

  Lemma set_prop_qui x : qui1 (p_set_prop (pg_d g) x) (p_set_prop (pg_d g') x).
  Proof.
    rewrite (gt_d _ _ _ G).
    assert (Hm : forall n J, qui1 (smod (fun s => set_op n J None None s)) (smod (fun s => set_op n J None None s))) by (intros; apply qui_mod; reflexivity).
    assert (H0 : qui1 (smod (fun s : pst => set_op (p_n s) (p_J s) None None s)) (smod (fun s => set_op (p_n s) (p_J s) None None s))) by (apply qui_mod; reflexivity).
    assert (HV : qui1 (sget (@p_Vinf R)) (sget (@p_Vinf R))) by (apply qui_get; reflexivity).
    assert (Hd : qui1 (default_op (pg_d g)) (default_op (pg_d g))).
    { unfold default_op. eapply qui_bind; [exact HV|]. intros V. eapply qui_bind; [apply qui_lift|]. intros n. apply qui_mod. reflexivity. }
    unfold p_set_prop. destruct x as [[x|[|y L]]|]; [|exact Hd| |exact Hd].
    - destruct (ntruthy x); [|exact Hd]. eapply qui_bind; [exact H0|]. intros. apply qui_raise.
    - eapply qui_bind; [exact H0|]. intros _.
      destruct (dget (y :: L) "J") as [vJ|].
      { eapply qui_bind; [apply qui_lift|]. intros J. eapply qui_bind; [apply qui_mod; reflexivity|]. intros _.
        eapply qui_bind; [exact HV|]. intros V. destruct (_ || _)%bool.
        - destruct (dget (y :: L) "rot_per_sec"); [|apply qui_raise]. eapply qui_bind; [apply qui_lift|]. intros n. apply Hm.
        - eapply qui_bind; [apply qui_lift|]. intros n. apply Hm. }
      destruct (dget (y :: L) "rot_per_sec") as [vn|].
      { eapply qui_bind; [apply qui_lift|]. intros n. eapply qui_bind; [apply qui_mod; reflexivity|]. intros _.
        eapply qui_bind; [exact HV|]. intros V. eapply qui_bind; [apply qui_lift|]. intros J. apply Hm. }
      destruct (dget (y :: L) "brake_power") as [vp|].
      { eapply qui_bind; [apply qui_lift|]. intros pw. apply qui_mod; reflexivity. }
      destruct (dget (y :: L) "electric_throttle") as [vt|]; [|apply qui_raise].
      eapply qui_bind; [apply qui_lift|]. intros th. apply qui_mod; reflexivity.
  Qed.

  (** everything between the flow and the forces *)
  Definition blades (g : pgeom R) (x : option (pval R)) : st pst unit :=
    p_set_prop (pg_d g) x ;;;
    sbind (sget (fun s => s)) (fun s => match p_power s, p_throttle s with None, None => find_coefficients E g | _, _ => state_from_power E g end) ;;;
    smod (find_Vi (pg_stations g)).
  Lemma blades_qui x : qui1 (blades g x) (blades g' x).
  Proof.
    unfold blades. eapply qui_bind; [apply set_prop_qui|]. intros []. eapply qui_bind.
    - intros s. unfold sbind, sget. change (p_throttle (phi s)) with (p_throttle s). change (p_power (phi s)) with (p_power s).
      destruct (p_power s), (p_throttle s); first [apply state_from_power_qui | apply find_coefficients_qui].
    - intros []. apply qui_mod. intros s. rewrite (gt_stations _ _ _ G). reflexivity.
  Qed.
End Phi.

(** *** One propeller *)
Lemma run_prop_blades E cg a ps g s :
  run_prop E cg a ps g s =
  (p_set_aero a ;;;
   (blades E g (local_state ps (pg_name g)) ;;;
    sbind (sget (fun s => s)) (fun s => sbind (slift (resolve g cg s)) (fun q => smod (set_forces q) ;;; sret q)))) s.
Proof.
  unfold run_prop, blades, p_calc_forces, sbind, sget, slift, smod, sret.
  destruct (p_set_aero a s) as [[[]|e] s1]; [|reflexivity].
  destruct (p_set_prop (pg_d g) (local_state ps (pg_name g)) s1) as [[[]|e] s2]; [|reflexivity].
  destruct (p_power s2), (p_throttle s2);
    match goal with |- context [state_from_power E g s2] => destruct (state_from_power E g s2) as [[[]|e] s3] | _ => destruct (find_coefficients E g s2) as [[[]|e] s3] end; reflexivity.
Qed.
Lemma blades_keep E g x s : p_v (snd (blades E g x s)) = p_v s.
Proof.
  pose proof (blades_qui (p_v s) (p_l s) (p_F s) (p_M s) E g g (gtwin_refl E g) x s) as K.
  rewrite prel_own in K. rewrite K. reflexivity.
Qed.
Lemma set_aero_given a s : an a <> [] ->
  p_set_aero (Some a) s =
  match dget (an a) "V_mag", dget (an a) "rho" with
  | Some V, Some rho => (Ok tt, set_flow_p (freestream n1 (dgetd (an a) "alpha" n0) (dgetd (an a) "beta" n0)) rho V s)
  | _, _ => (Err RuntimeError, set_flow_p (freestream n1 (dgetd (an a) "alpha" n0) (dgetd (an a) "beta" n0)) (p_rho s) (p_Vinf s) s)
  end.
Proof.
  intros K. unfold p_set_aero, opt_truthy. rewrite (truthy_given a K). destruct (dget (an a) "V_mag"), (dget (an a) "rho"); reflexivity.
Qed.
Lemma set_forces_scrub q s : scrub (set_forces q s) = MkPS (p_clock s) (p_ei s) (p_n s) (p_J s) (p_power s) (p_throttle s) vzero (p_rho s) (p_Vinf s)
       (p_einf s) (p_alpha s) (p_CL s) (p_CD s) (p_CT s) (p_Cl s) (p_CNa s) (p_Cna s) (p_CP s) (p_eff s)
       (p_Vi s) (p_Vxi s) (p_Vti s) (snd (fst q)) 0 vzero vzero.
Proof. destruct q as [[[F M] Th] l]. reflexivity. Qed.
Lemma resolve_thrust (g : pgeom R) cg s q : resolve g cg s = Ok q -> snd (fst q) = p_rho s * (p_n s * p_n s) * fourth (pg_d g) * p_CT s.
Proof.
  unfold resolve. cbv zeta. destruct (vec_angle (pg_forward g) (vopp (p_v s))) as [t|e]; [|discriminate]. cbn [rbind].
  destruct (if neqb t n0 then _ else _) as [[Nf nm] Nv]. intros K. injection K as <-. reflexivity.
Qed.
Section OneCall.
  Variable E : penv R.
  Lemma run_prop_ok cg a ps g s q t : an a <> [] -> run_prop E cg (Some a) ps g s = (Ok q, t) ->
    exists V rho s1, dget (an a) "V_mag" = Some V /\ dget (an a) "rho" = Some rho /\
      blades E g (local_state ps (pg_name g)) (set_flow_p (freestream n1 (dgetd (an a) "alpha" n0) (dgetd (an a) "beta" n0)) rho V s) = (Ok tt, s1) /\
      resolve g cg s1 = Ok q /\ t = set_forces q s1.
  Proof.
    intros Na. rewrite run_prop_blades. unfold sbind. rewrite (set_aero_given a s Na).
    destruct (dget (an a) "V_mag") as [V|]; [|discriminate]. destruct (dget (an a) "rho") as [rho|]; [|discriminate].
    set (s0 := set_flow_p _ rho V s). destruct (blades E g (local_state ps (pg_name g)) s0) as [[[]|e] s1] eqn:Eb; [|discriminate].
    unfold sget, slift, smod, sret. destruct (resolve g cg s1) as [q1|e] eqn:Er; [|discriminate].
    intros K. apply pair_equal_spec in K. destruct K as [K1 <-]. injection K1 as <-. exists V, rho, s1. auto.
  Qed.
  (** what is left behind does not depend on the direction of the flow or of the propeller *)
  Lemma run_scrub cg cg' a ps g g' s s' q q' t t' : gtwin E g g' -> settings_same ps g g' -> an a <> [] -> scrub s' = scrub s ->
    run_prop E cg (Some a) ps g s = (Ok q, t) -> run_prop E cg' (Some a) ps g' s' = (Ok q', t') -> scrub t' = scrub t.
  Proof.
    intros G HS Na Hs K K'. destruct (run_prop_ok _ _ _ _ _ _ _ Na K) as (V & rho & s1 & E1 & E2 & E3 & E4 & ->).
    destruct (run_prop_ok _ _ _ _ _ _ _ Na K') as (V' & rho' & s1' & E1' & E2' & E3' & E4' & ->).
    assert (V' = V) by congruence. assert (rho' = rho) by congruence. subst V' rho'.
    rewrite !set_forces_scrub, (resolve_thrust _ _ _ _ E4), (resolve_thrust _ _ _ _ E4').
    set (v := freestream n1 _ _) in *. apply (proj1 (scrub_prel s s')) in Hs.
    pose proof (blades_qui v (p_l s') (p_F s') (p_M s') E g g' G (local_state ps (pg_name g)) (set_flow_p v rho V s)) as Q.
    unfold settings_same in HS. rewrite HS in E3'.
    assert (Es : set_flow_p v rho V s' = prel v (p_l s') (p_F s') (p_M s') (set_flow_p v rho V s)) by (rewrite Hs at 1; reflexivity).
    rewrite Es in E3'. rewrite Q, E3 in E3'. cbn [fst snd] in E3'. apply pair_equal_spec in E3'. destruct E3' as [_ <-].
    rewrite (gt_d _ _ _ G). reflexivity.
  Qed.
  (** a call does not see what is overwritten *)
  Lemma run_exact cg a ps g s s' q t : an a <> [] -> scrub s' = scrub s ->
    run_prop E cg (Some a) ps g s = (Ok q, t) -> run_prop E cg (Some a) ps g s' = (Ok q, t).
  Proof.
    intros Na Hs K. destruct (run_prop_ok _ _ _ _ _ _ _ Na K) as (V & rho & s1 & E1 & E2 & E3 & E4 & ->).
    rewrite run_prop_blades. unfold sbind. rewrite (set_aero_given a s' Na), E1, E2.
    set (v := freestream n1 _ _) in *. apply (proj1 (scrub_prel s s')) in Hs.
    pose proof (blades_qui v (p_l s') (p_F s') (p_M s') E g g (gtwin_refl E g) (local_state ps (pg_name g)) (set_flow_p v rho V s)) as Q.
    assert (Es : set_flow_p v rho V s' = prel v (p_l s') (p_F s') (p_M s') (set_flow_p v rho V s)) by (rewrite Hs at 1; reflexivity).
    pose proof (blades_keep E g (local_state ps (pg_name g)) (set_flow_p v rho V s)) as Ev. rewrite E3 in Ev. cbn [snd set_flow_p p_v] in Ev.
    rewrite Es, Q, E3. cbn [fst snd]. unfold sget, slift, smod, sret.
    assert (Er : resolve g cg (prel v (p_l s') (p_F s') (p_M s') s1) = resolve g cg s1).
    { transitivity (resolve g cg (prel (p_v s1) (p_l s') (p_F s') (p_M s') s1)); [now rewrite Ev|]. reflexivity. }
    rewrite Er, E4. f_equal. destruct q as [[[F M] Th] l]. unfold set_forces, prel. cbn. now rewrite Ev.
  Qed.

  (** *** All propellers *)
  Definition alike (s s' : pst) : Prop := scrub s' = scrub s.
  Lemma run_props_scrub cg cg' a ps : an a <> [] -> forall gs gs', Forall2 (gtwin E) gs gs' -> Forall2 (settings_same ps) gs gs' ->
    forall ss ss' qs qs' ts ts', List.length ss = List.length gs -> Forall2 alike ss ss' ->
    run_props E cg (Some a) ps gs ss = (Ok qs, ts) -> run_props E cg' (Some a) ps gs' ss' = (Ok qs', ts') -> Forall2 alike ts ts'.
  Proof.
    intros Na gs gs' G. induction G as [|g g' gs gs' G1 G IH]; intros HS ss ss' qs qs' ts ts' L A K K'; inversion_clear HS.
    - destruct ss; [|discriminate]. inversion A; subst. cbn [run_props] in *. injection K as <- <-. injection K' as <- <-. constructor.
    - inversion A as [|s s' ss0 ss0' A1 A2]; subst; [discriminate|]. cbn [run_props] in *.
      destruct (run_prop E cg (Some a) ps g s) as [[q|e] t] eqn:Er; [|discriminate].
      destruct (run_prop E cg' (Some a) ps g' s') as [[q'|e] t'] eqn:Er'; [|discriminate].
      destruct (run_props E cg (Some a) ps gs ss0) as [[q2|e] t2] eqn:Es; [|discriminate].
      destruct (run_props E cg' (Some a) ps gs' ss0') as [[q2'|e] t2'] eqn:Es'; [|discriminate].
      apply pair_equal_spec in K. destruct K as [_ <-]. apply pair_equal_spec in K'. destruct K' as [_ <-].
      constructor; [eapply run_scrub; eauto|]. eapply IH; eauto.
  Qed.
  Lemma run_props_exact cg a ps : an a <> [] -> forall gs ss ss' qs ts, List.length ss = List.length gs -> Forall2 alike ss ss' ->
    run_props E cg (Some a) ps gs ss = (Ok qs, ts) -> run_props E cg (Some a) ps gs ss' = (Ok qs, ts).
  Proof.
    intros Na. induction gs as [|g gs IH]; intros ss ss' qs ts L A K.
    - destruct ss; [|discriminate]. inversion A; subst. exact K.
    - inversion A as [|s s' ss0 ss0' A1 A2]; subst; [discriminate|]. cbn [run_props] in *.
      destruct (run_prop E cg (Some a) ps g s) as [[q|e] t] eqn:Er; [|discriminate].
      rewrite (run_exact cg a ps g s s' q t Na A1 Er).
      destruct (run_props E cg (Some a) ps gs ss0) as [[q2|e] t2] eqn:Es; [|discriminate].
      rewrite (IH ss0 ss0' q2 t2 ltac:(cbn in L; lia) A2 Es). exact K.
  Qed.
End OneCall.
Lemma pmir_alike s : alike s (pmir s).
Proof. reflexivity. Qed.
