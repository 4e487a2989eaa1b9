(** Lemmas for the statements about solve, its effects and failing derivative calls. *)
From Coq Require Import Reals ZArith String Bool Arith Lia Lra List.
From Verif Require Import Base Num RVec Geometry Grid LLModel PropModel Spec_Grid Spec_LL Spec_Prop MU Spec_MU
  LL_state LL_R LL_solve LL_props LL_thm Prop_state Prop_thm Prop_thm4 MU_thm MU_thm2 MU_thm3 MU_thm4 MU_thm5 MU_thm6 MU_thm7 MU_thm8 MU_thm9 MU_thm13 MU_thm14.
Import ListNotations.
Local Open Scope string_scope.

Section Rows.
  Context {T : Type} {N : num_ops T}.
  Lemma map2_len {A B C} (f : A -> B -> C) : forall l m, List.length l = List.length m -> List.length (map2 f l m) = List.length m.
  Proof. induction l as [|x l IH]; intros [|y m] K; cbn in *; try discriminate; auto. Qed.
  Lemma slipstreams_length n : forall (gs : list (pgeom T)) ss rows, List.length rows = n ->
    (forall g pts, In g gs -> pg_wing g = Some pts -> List.length pts = n) ->
    List.length (slipstreams gs ss rows) = n.
  Proof.
    induction gs as [|g gs IH]; intros ss rows Hr Hg; [exact Hr|]. destruct ss as [|s ss]; [exact Hr|].
    cbn [slipstreams]. apply IH; [|intros; eapply Hg; [right|]; eauto].
    unfold add_slipstream. destruct (pg_wing g) as [pts|] eqn:E; [|exact Hr].
    pose proof (Hg g pts (or_introl eq_refl) E) as K. rewrite map2_len; congruence.
  Qed.
  Lemma props_rows E (pl : airplane T) pts gs : make_props E pl (Some pts) = Ok gs ->
    forall g q, In g gs -> pg_wing g = Some q -> List.length q = List.length pts.
  Proof.
    intros H g q Hin Hq. unfold make_props in H. destruct (rmap_inv _ _ _ H g Hin) as (p & P1 & P2).
    unfold rbind in P2. destruct (get_units pl) as [u|]; [|discriminate].
    unfold make_pgeom, rbind in P2. destruct (zetas p) as [zs|]; [|discriminate].
    destruct (PropModel.coefficients p zs) as [c|]; [|discriminate].
    destruct (pitch E p) as [b|]; [|discriminate].
    destruct (chord E p zs) as [cb|]; [|discriminate].
    destruct (make_motor p) as [m|]; [|discriminate].
    injection P2 as <-. cbn [pg_wing option_map] in Hq. injection Hq as <-. apply map_length.
  Qed.

  Lemma machup_parts E (pl : airplane T) X : make_machup E pl = Ok X ->
    (a_wings pl = [] -> mm_grid X = None /\ mm_points X = None) /\
    (a_wings pl <> [] -> exists g, make_grid true pl = Ok g /\ mm_grid X = Some g /\ mm_points X = Some (List.length (g_sections g))) /\
    (a_props pl = [] -> mm_props X = []) /\
    (a_props pl <> [] -> mm_props X <> [] /\ exists pts, make_props (me_prop E) pl pts = Ok (mm_props X) /\ option_map (@List.length _) pts = mm_points X).
  Proof.
    unfold make_machup. intros K.
    destruct (a_wings pl) as [|q ws] eqn:Ew; cbn [rbind] in K.
    - destruct (a_props pl) as [|p l] eqn:Ep; cbn [rbind option_map] in K.
      + injection K as <-. cbn. repeat split; intros; congruence.
      + destruct (make_props (me_prop E) pl None) as [gs|] eqn:Em; [|discriminate]. cbn [rbind] in K. injection K as <-. cbn.
        repeat split; try congruence.
        * unfold make_props in Em. rewrite Ep in Em. cbn [map rmap] in Em. unfold rbind in Em. destruct (get_units pl); [|discriminate].
          destruct (make_pgeom _ _ _ _); [|discriminate]. destruct (rmap _ _); [|discriminate]. intros C. congruence.
        * exists None. auto.
    - destruct (make_grid true pl) as [g|] eqn:Eg; [|discriminate]. cbn [rbind option_map] in K.
      destruct (a_props pl) as [|p l] eqn:Ep; cbn [rbind] in K.
      + injection K as <-. cbn. repeat split; intros; try congruence. exists g. rewrite map_length. auto.
      + destruct (make_props (me_prop E) pl (Some (map (@s_r T) (g_sections g)))) as [gs|] eqn:Em; [|discriminate]. cbn [rbind] in K. injection K as <-. cbn.
        repeat split; try congruence.
        * intros _. exists g. rewrite map_length. auto.
        * unfold make_props in Em. rewrite Ep in Em. cbn [map rmap] in Em. unfold rbind in Em. destruct (get_units pl); [|discriminate].
          destruct (make_pgeom _ _ _ _); [|discriminate]. destruct (rmap _ _); [|discriminate]. intros C. congruence.
        * exists (Some (map (@s_r T) (g_sections g))). rewrite <- Em. split; [|reflexivity]. reflexivity.
  Qed.

  (** C34 *)
  Lemma solve_effects E (pl : airplane T) X ps f (w : world T (mstate T)) : make_machup E pl = Ok X ->
    let w' := snd (mu_solve E X ps f w) in
    w_ctl w' = w_ctl w /\ (w_aero w = None -> w_aero w' = None) /\
    (forall a, w_aero w = Some a -> exists a', w_aero w' = Some a' /\ an a' = an a /\
       (a_wings pl = [] \/ a_props pl = [] -> a' = a) /\
       (forall t, given a -> a_wings pl <> [] -> a_props pl <> [] -> fst (mu_solve E X ps f w) = Ok t ->
          exists g rows, make_grid true pl = Ok g /\ als a' = Some rows /\ List.length rows = List.length (g_sections g))).
  Proof.
    intros Em w'. destruct (machup_parts E pl X Em) as (P1 & P2 & P3 & P4).
    assert (Ho : (forall a, w_aero w = Some a -> ~ given a) -> w_aero w' = w_aero w /\ w_ctl w' = w_ctl w).
    { intros Ho. destruct (solve_omitted E X ps f w Ho) as (r & a' & s' & _ & K1 & K2 & _). auto. }
    destruct (w_aero w) as [a|] eqn:Ea.
    - destruct (aero_truthy a) eqn:Et.
      + assert (Hg : given a).
        { unfold given. unfold aero_truthy in Et. apply orb_true_iff in Et.
          destruct (an a); [right|left; discriminate]. destruct (als a); [discriminate|]. destruct Et; discriminate. }
        destruct (solve_given E X ps f w a Ea Hg) as (r & a' & s' & K & K1 & K2 & _ & K3 & _). fold w' in K1, K2.
        split; [exact K2|]. split; [discriminate|]. intros a0 E0. injection E0 as <-. exists a'. split; [exact K1|].
        destruct (parts_keep E X ps a (w_ctl w) (w_model w) r a' s' K) as (L1 & _ & L2). split; [exact L1|]. split.
        * intros [C|C]; apply L2; [left; apply P1; auto|right; auto].
        * intros t _ Hw Hp Hr. rewrite K3 in Hr. destruct r as [[[wr pr] tot]|]; [|discriminate].
          destruct (parts_add E X ps _ _ _ _ _ _ _ _ K) as (p & q & _ & _ & Q).
          destruct (P2 Hw) as (g & G1 & G2 & G3). destruct (P4 Hp) as (Hn & pts & M1 & M2).
          rewrite G3 in M2. destruct pts as [pts|]; [|discriminate]. injection M2 as M2.
          destruct (mm_props X) as [|x gs] eqn:Egs; [congruence|].
          destruct Q as (pt & rows & ss & Q1 & _ & Q2). rewrite G3 in Q1. unfold props_solve, sbind in Q1.
          destruct (calc_forces _ _ _ _ _ _) as [[q0|e] s1]; [|discriminate]. unfold slift in Q1.
          destruct (velocity_field (Some a) (List.length (g_sections g))) as [rows0|e] eqn:Ev; [|discriminate].
          unfold sget, sret in Q1. apply pair_equal_spec in Q1. destruct Q1 as [Q1 _]. injection Q1 as _ Q1.
          exists g, (slipstreams (x :: gs) s1 rows0). split; [exact G1|].
          subst rows. subst a'. split; [reflexivity|].
          apply slipstreams_length.
          -- unfold velocity_field in Ev. destruct (opt_truthy aero_truthy (Some a)) as [a1|]; [|injection Ev as <-; apply repeat_length].
             destruct (dget (an a1) "V_mag"); [|discriminate]. destruct (dget (an a1) "rho"); [|discriminate]. injection Ev as <-. apply repeat_length.
          -- intros g0 q1 I1 I2. rewrite <- M2. eapply props_rows; eauto.
      + assert (Hn : ~ given a).
        { intros [C|C]; unfold aero_truthy in Et; apply orb_false_iff in Et; destruct Et as [E1 E2];
            [destruct (an a)|destruct (als a)]; try discriminate; now apply C. }
        destruct Ho as [H1 H2]; [intros a0 E0; injection E0 as <-; exact Hn|].
        split; [exact H2|]. split; [discriminate|]. intros a0 E0. injection E0 as <-. exists a. rewrite H1.
        repeat split; auto. intros t Hg. now destruct Hn.
    - destruct Ho as [H1 H2]; [discriminate|]. split; [exact H2|]. split; [intros _; exact H1|]. discriminate.
  Qed.
End Rows.

(** C39: without aero_state *)
Lemma derivatives_no_aero {S} (H : host R S) f (w : world R S) r : h_refs H = Some r -> w_aero w = None ->
  exists e, fst (derivatives H f w) = Err e.
Proof.
  intros Er Ea. destruct (derivatives H f w) as [[d|e] w'] eqn:K; [|now exists e]. exfalso.
  destruct (derivatives_ok H f w d w' r Er K) as (stab & cont & damp & w1 & w2 & w3 & ma & la & K1 & K2 & _).
  assert (G : aero_given w = false) by (unfold aero_given; now rewrite Ea).
  rewrite (stability_omitted H w G) in K1. injection K1 as _ K1.
  assert (E1 : w_aero w1 = None) by (subst w1; exact Ea).
  rewrite (control_no_aero H w1 E1) in K2. discriminate.
Qed.

(** C40 *)
Section Fails.
  Local Open Scope R_scope.
  Context {S : Type}.
  Variable H : host R S.
  Hypothesis keeps : forall a c s r a' s', h_solve H a c s = (r, a', s') ->
    an a' = an a /\ (als a <> None -> als a' <> None).

  Lemma stability_fails' w a r e w' : h_refs H = Some r -> w_aero w = Some a -> given a ->
    stability_derivatives H w = (Err e, w') ->
    exists l k a', w_log w' = (w_log w ++ l ++ [k])%list /\ w_ctl w' = w_ctl w /\ w_files w' = w_files w /\
      w_aero w' = Some a' /\ k_r k = Err e /\
      let alpha := entry (an a) "alpha" in let beta := entry (an a) "beta" in
      let restored := dset (an a) "alpha" alpha in
      In (an a') [dset (an a) "alpha" (alpha - 1 / 2); dset (an a) "alpha" (alpha + 1 / 2);
                  dset restored "beta" (beta - 1 / 2); dset restored "beta" (beta + 1 / 2)].
  Proof.
    intros Er Ea Hg K. unfold stability_derivatives in K. rewrite (aero_given_some w a Ea Hg) in K.
    destruct (stability_fails H keeps w e w' a r Er Ea K) as (l & k & a' & Ew & A1 & A2). cbv zeta in A1.
    rewrite <- !entry_dgetd, half' in A1. exists l, k, a'. rewrite Ew. cbn [w_log w_ctl w_files w_aero]. cbv zeta.
    unfold failed_at in A1. cbn [In]. rewrite A2.
    destruct A1 as [(B1 & _ & B2)|[(B1 & _ & B2)|[(B1 & _ & B2)|(B1 & _ & B2)]]]; rewrite B1; repeat split; auto 6.
  Qed.
  Lemma damping_fails' w a r e w' : h_refs H = Some r -> w_aero w = Some a -> given a ->
    damping_derivatives H w = (Err e, w') ->
    exists l k a', w_log w' = (w_log w ++ l ++ [k])%list /\ w_ctl w' = w_ctl w /\ w_files w' = w_files w /\
      w_aero w' = Some a' /\ k_r k = Err e /\
      let V := match dget (an a) "V_mag" with Some x => x | None => 10 end in
      let p := entry (an a) "roll_rate" in let q := entry (an a) "pitch_rate" in let y := entry (an a) "yaw_rate" in
      let dlat := / 200 * (2 * V / r_lat r) in let dlong := / 200 * (2 * V / r_long r) in
      let e1 := dset (an a) "roll_rate" p in let e2 := dset e1 "pitch_rate" q in
      In (an a') [dset (an a) "roll_rate" (p - dlat); dset (an a) "roll_rate" (p + dlat);
                  dset e1 "pitch_rate" (q - dlong); dset e1 "pitch_rate" (q + dlong);
                  dset e2 "yaw_rate" (y - dlat); dset e2 "yaw_rate" (y + dlat)].
  Proof.
    intros Er Ea Hg K. unfold damping_derivatives in K. rewrite (aero_given_some w a Ea Hg) in K.
    destruct (damping_fails H keeps w e w' a r Er Ea K) as (l & k & a' & Ew & A1 & A2). cbv zeta in A1.
    assert (EV : dgetd (an a) "V_mag" (nint 10) = match dget (an a) "V_mag" with Some x => x | None => 10 end).
    { unfold dgetd. destruct (dget (an a) "V_mag"); reflexivity. }
    rewrite EV in A1. set (V := match dget (an a) "V_mag" with Some x => x | None => 10 end) in *.
    assert (Es : forall l, ndiv (nmul (nmul (ndec 5 3) n2) V) l = / 200 * (2 * V / l)).
    { intros l0. rewrite five_milli. rnum. unfold Rdiv. ring. }
    rewrite !Es, <- !entry_dgetd in A1. exists l, k, a'. rewrite Ew. cbn [w_log w_ctl w_files w_aero]. cbv zeta.
    unfold failed_at in A1. cbn [In]. rewrite A2.
    destruct A1 as [(B1 & _ & B2)|[(B1 & _ & B2)|[(B1 & _ & B2)|[(B1 & _ & B2)|[(B1 & _ & B2)|(B1 & _ & B2)]]]]]; rewrite B1; repeat split; auto 9.
  Qed.
  Lemma control_fails' w a c r e w' : h_refs H = Some r -> w_aero w = Some a -> given a -> w_ctl w = Some c -> c <> [] ->
    control_derivatives H w = (Err e, w') ->
    exists l k a' c', w_log w' = (w_log w ++ l ++ [k])%list /\ w_files w' = w_files w /\
      w_aero w' = Some a' /\ an a' = an a /\ w_ctl w' = Some c' /\ k_r k = Err e /\
      let x0 := entry c "aileron" in let x1 := entry c "elevator" in
      let x2 := entry c "rudder" in let x3 := entry c "flap" in
      let c1 := dset c "aileron" x0 in let c2 := dset c1 "elevator" x1 in let c3 := dset c2 "rudder" x2 in
      In c' [dset c "aileron" (x0 - 1 / 4); dset c "aileron" (x0 + 1 / 4);
             dset c1 "elevator" (x1 - 1 / 4); dset c1 "elevator" (x1 + 1 / 4);
             dset c2 "rudder" (x2 - 1 / 4); dset c2 "rudder" (x2 + 1 / 4);
             dset c3 "flap" (x3 - 1 / 4); dset c3 "flap" (x3 + 1 / 4)].
  Proof.
    intros Er Ea Hg Ec Hc K. unfold control_derivatives in K.
    rewrite (ctl_given_some w c Ec Hc) in K.
    destruct (control_fails H keeps w e w' a c r Er Ea Hg Ec K) as (l & k & a' & c' & Ew & A1 & A2 & A3). cbv zeta in A1.
    rewrite <- !entry_dgetd, quarter in A1. exists l, k, a', c'. rewrite Ew. cbn [w_log w_ctl w_files w_aero]. cbv zeta.
    unfold failed_at in A1. rewrite A3 in A1. cbn [In].
    destruct A1 as [(_ & B1 & B2)|[(_ & B1 & B2)|[(_ & B1 & B2)|[(_ & B1 & B2)|[(_ & B1 & B2)|[(_ & B1 & B2)|[(_ & B1 & B2)|(_ & B1 & B2)]]]]]]]; injection B1 as B1; rewrite B1; repeat split; auto 11.
  Qed.
End Fails.
