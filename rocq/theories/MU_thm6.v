(** derivatives() and failing solves (C39, C40). *)
From Coq Require Import Reals ZArith String Bool Arith Lia Lra List.
From Verif Require Import Base Num RVec Geometry Grid LLModel PropModel Spec_LL LL_state LL_R MU Spec_MU MU_thm MU_thm2 MU_thm3 MU_thm4 MU_thm5.
Import ListNotations.
Local Open Scope string_scope.
Local Open Scope R_scope.

Section G.
  Context {T : Type} {N : num_ops T} {S : Type}.
  Variable H : host T S.
  Notation W := (world T S).

  Lemma derivatives_ok f (w : W) d w' r : h_refs H = Some r -> derivatives H f w = (Ok d, w') ->
    exists stab cont damp w1 w2 w3 ma la,
      stability_derivatives H w = (Ok stab, w1) /\ control_derivatives H w1 = (Ok cont, w2) /\
      damping_derivatives H w2 = (Ok damp, w3) /\
      dget stab "Cm_a" = Some ma /\ dget stab "CL_a" = Some la /\
      d = Answer (MkDer (dset stab "static_margin" (ndiv (nopp ma) la)) cont damp) /\
      w' = (match named f with Some n => put_file n [F_derivs (MkDer (dset stab "static_margin" (ndiv (nopp ma) la)) cont damp)] w3
            | None => w3 end).
  Proof.
    intros Er K. unfold derivatives in K. rewrite Er in K.
    apply sbind_ok in K. destruct K as (a0 & v & K & K').
    apply sbind_ok in K. destruct K as (stab & w1 & K1 & K).
    apply sbind_ok in K. destruct K as (ma & v1 & K2 & K).
    apply sbind_ok in K. destruct K as (la & v2 & K3 & K). cbv zeta in K.
    apply sbind_ok in K. destruct K as (cont & w2 & K4 & K).
    apply sbind_ok in K. destruct K as (damp & w3 & K5 & K).
    unfold dlookup, slift in K2, K3.
    destruct (dget stab "Cm_a") as [x|] eqn:E1; [|discriminate]. injection K2 as <- <-.
    destruct (dget stab "CL_a") as [y|] eqn:E2; [|discriminate]. injection K3 as <- <-.
    injection K as <- <-.
    exists stab, cont, damp, w1, w2, w3, x, y.
    apply sbind_ok in K'. destruct K' as ([] & w4 & K6 & K'). injection K' as <- <-.
    repeat (split; [solve [auto]|]). unfold write_if in K6. destruct (named f); cbn in K6; now injection K6.
  Qed.

  Lemma derivatives_no_wings f (w : W) : h_refs H = None ->
    derivatives H f w = match named f with
                        | Some n => (Ok (ErrorRecord "underivable"), put_file n [F_error "underivable"] w)
                        | None => (Err RuntimeError, w)
                        end.
  Proof. intros Er. unfold derivatives, write_if, sbind. rewrite Er. destruct (named f); reflexivity. Qed.

  Lemma dpa_run (w : W) a r : h_refs H = Some r -> w_aero w = Some a -> dynamic_pressure_area H w = (Ok (dpa (an a) r), w).
  Proof. intros Er Ea. unfold dynamic_pressure_area, need_refs, sbind, get_aero. rewrite Er, Ea. cbn [sret]. rewrite Ea. reflexivity. Qed.
  Lemma need_run (w : W) r : h_refs H = Some r -> need_refs H w = (Ok r, w).
  Proof. intros Er. unfold need_refs. now rewrite Er. Qed.

  (** *** a failing solve *)
  Hypothesis keeps : forall a c s r a' s', h_solve H a c s = (r, a', s') ->
    an a' = an a /\ (als a <> None -> als a' <> None).

  Lemma around_aero_fails key x0 d (w : W) e w' a :
    around_aero H key x0 d w = (Err e, w') -> w_aero w = Some a ->
    exists l k a', w' = MkW (Some a') (w_ctl w) (w_model w') (w_files w) (w_log w ++ l ++ [k]) /\
      (failed_at k (dset (an a) key (nsub x0 d)) (w_ctl w) e \/ failed_at k (dset (an a) key (nadd x0 d)) (w_ctl w) e) /\
      an a' = an (k_a k).
  Proof.
    intros K Ea. unfold around_aero in K.
    apply sbind_err in K. destruct K as [K|(u & w1 & K1 & K)]; [discriminate|].
    unfold set_aero, smod in K1. injection K1 as _ <-. rewrite Ea in K. cbn [option_map put_aero] in K.
    apply sbind_err in K. destruct K as [K|(r1 & w2 & K2 & K)].
    - destruct (do_solve_run H keeps _ _ _ _ K eq_refl (set_given _ _ _ _)) as (a1 & A1 & _ & A2 & A3).
      exists [], (MkCall (MkAero (dset (an a) key (nsub x0 d)) (als a)) (w_ctl w) (Err e) (w_model w')), a1.
      split; [exact A3|]. split; [left; repeat split|]. exact A1.
    - destruct (do_solve_run H keeps _ _ _ _ K2 eq_refl (set_given _ _ _ _)) as (a1 & A1 & _ & A2 & A3).
      apply sbind_err in K. destruct K as [K|(u' & w3 & K3 & K)]; [discriminate|].
      unfold set_aero, smod in K3. injection K3 as _ <-. rewrite A3 in K. cbn [option_map put_aero w_aero] in K.
      apply sbind_err in K. destruct K as [K|(r2 & w4 & K4 & K)]; [|discriminate].
      destruct (do_solve_run H keeps _ _ _ _ K eq_refl (set_given _ _ _ _)) as (a2 & B1 & _ & B2 & B3).
      cbn [w_ctl w_files w_log an put_aero w_model] in *.
      eexists [_], (MkCall _ _ _ _), a2. split; [rewrite <- app_assoc in B3; exact B3|].
      split; [right|exact B1]. unfold failed_at. cbn [k_a k_c k_r an]. rewrite A1. cbn [an]. rewrite dset_twice. auto.
  Qed.

  Lemma stability_fails w e w' a r : h_refs H = Some r -> w_aero w = Some a ->
    stability_body H w = (Err e, w') ->
    exists l k a', w' = MkW (Some a') (w_ctl w) (w_model w') (w_files w) (w_log w ++ l ++ [k]) /\
      let a0 := dgetd (an a) "alpha" n0 in let b0 := dgetd (an a) "beta" n0 in
      let restored := dset (an a) "alpha" a0 in
      (failed_at k (dset (an a) "alpha" (nsub a0 (ndec 5 1))) (w_ctl w) e \/
       failed_at k (dset (an a) "alpha" (nadd a0 (ndec 5 1))) (w_ctl w) e \/
       failed_at k (dset restored "beta" (nsub b0 (ndec 5 1))) (w_ctl w) e \/
       failed_at k (dset restored "beta" (nadd b0 (ndec 5 1))) (w_ctl w) e) /\
      an a' = an (k_a k).
  Proof.
    intros Er Ea K. unfold stability_body in K.
    rewrite (sbind_run _ _ _ _ _ (dpa_run _ _ _ Er Ea)) in K.
    rewrite (sbind_run _ _ _ _ _ (need_run _ _ Er)) in K. cbv zeta in K.
    rewrite (sbind_run _ _ _ _ _ (get_aero_some _ _ _ _ Ea)) in K.
    apply sbind_err in K. destruct K as [K|([f1 b1] & w1 & K1 & K)].
    - destruct (around_aero_fails _ _ _ _ _ _ _ K Ea) as (l & k & a' & A1 & A2 & A3). exists l, k, a'. cbv zeta. tauto.
    - destruct (pair_aero H keeps _ _ _ (dgetd (an a) "alpha" n0) _ _ _ _ _ K1 Ea) as (c1 & c2 & a1 & E1 & A1 & A2 & A3 & A4 & A5 & A6 & A7).
      apply sbind_err in K. destruct K as [K|([] & w3 & K2 & K)]; [discriminate|].
      rewrite K2 in E1. cbn [snd] in E1. clear K2.
      assert (Ea3 : w_aero w3 = Some a1) by now rewrite E1.
      rewrite (sbind_run _ _ _ _ _ (get_aero_some _ _ _ _ Ea3)) in K.
      apply sbind_err in K. destruct K as [K|([f2 b2] & w4 & K3 & K)].
      + destruct (around_aero_fails _ _ _ _ _ _ _ K Ea3) as (l & k & a' & B1 & B2 & B3).
        assert (Eb : dgetd (an a1) "beta" n0 = dgetd (an a) "beta" n0) by (rewrite A7; now rewrite dgetd_dset_other).
        rewrite Eb, A7 in B2. rewrite E1 in B1, B2. cbn [w_ctl w_files w_log w_model] in B1, B2.
        exists ([c1; c2] ++ l)%list, k, a'. cbv zeta. split; [rewrite B1 at 1; now rewrite <- !app_assoc|]. split; [tauto|exact B3].
      + apply sbind_err in K. destruct K as [K|([] & w5 & K4 & K)]; discriminate.
  Qed.

  Lemma damping_fails w e w' a r : h_refs H = Some r -> w_aero w = Some a ->
    damping_body H w = (Err e, w') ->
    exists l k a', w' = MkW (Some a') (w_ctl w) (w_model w') (w_files w) (w_log w ++ l ++ [k]) /\
      let V := dgetd (an a) "V_mag" (nint 10) in
      let p0 := dgetd (an a) "roll_rate" n0 in let q0 := dgetd (an a) "pitch_rate" n0 in
      let r0 := dgetd (an a) "yaw_rate" n0 in
      let dlat := ndiv (nmul (nmul (ndec 5 3) n2) V) (r_lat r) in
      let dlong := ndiv (nmul (nmul (ndec 5 3) n2) V) (r_long r) in
      let e1 := dset (an a) "roll_rate" p0 in let e2 := dset e1 "pitch_rate" q0 in
      (failed_at k (dset (an a) "roll_rate" (nsub p0 dlat)) (w_ctl w) e \/
       failed_at k (dset (an a) "roll_rate" (nadd p0 dlat)) (w_ctl w) e \/
       failed_at k (dset e1 "pitch_rate" (nsub q0 dlong)) (w_ctl w) e \/
       failed_at k (dset e1 "pitch_rate" (nadd q0 dlong)) (w_ctl w) e \/
       failed_at k (dset e2 "yaw_rate" (nsub r0 dlat)) (w_ctl w) e \/
       failed_at k (dset e2 "yaw_rate" (nadd r0 dlat)) (w_ctl w) e) /\
      an a' = an (k_a k).
  Proof.
    intros Er Ea K. unfold damping_body in K.
    rewrite (sbind_run _ _ _ _ _ (get_aero_some _ _ _ _ Ea)) in K.
    rewrite (sbind_run _ _ _ _ _ (get_aero_some _ _ _ _ Ea)) in K.
    rewrite (sbind_run _ _ _ _ _ (need_run _ _ Er)) in K. cbv zeta in K.
    rewrite (sbind_run _ _ _ _ _ (get_aero_some _ _ _ _ Ea)) in K.
    apply sbind_err in K. destruct K as [K|([f1 b1] & w1 & K1 & K)].
    { destruct (around_aero_fails _ _ _ _ _ _ _ K Ea) as (l & k & a' & A1 & A2 & A3). exists l, k, a'. cbv zeta. tauto. }
    destruct (pair_aero H keeps _ _ _ (dgetd (an a) "roll_rate" n0) _ _ _ _ _ K1 Ea) as (c1 & c2 & a1 & E1 & _ & _ & _ & _ & _ & _ & A7).
    apply sbind_err in K. destruct K as [K|([] & w3 & K2 & K)]; [discriminate|].
    rewrite K2 in E1. cbn [snd] in E1. clear K2.
    assert (Ea3 : w_aero w3 = Some a1) by now rewrite E1.
    rewrite (sbind_run _ _ _ _ _ (get_aero_some _ _ _ _ Ea3)) in K.
    assert (Eb : dgetd (an a1) "pitch_rate" n0 = dgetd (an a) "pitch_rate" n0) by (rewrite A7; now rewrite dgetd_dset_other).
    rewrite Eb in K.
    apply sbind_err in K. destruct K as [K|([f2 b2] & w4 & K3 & K)].
    { destruct (around_aero_fails _ _ _ _ _ _ _ K Ea3) as (l & k & a' & B1 & B2 & B3).
      rewrite A7 in B2. rewrite E1 in B1, B2. cbn [w_ctl w_files w_log w_model] in B1, B2.
      exists ([c1; c2] ++ l)%list, k, a'. cbv zeta. split; [rewrite B1 at 1; now rewrite <- !app_assoc|]. split; [tauto|exact B3]. }
    destruct (pair_aero H keeps _ _ _ (dgetd (an a) "pitch_rate" n0) _ _ _ _ _ K3 Ea3) as (c3 & c4 & a2 & E2 & _ & _ & _ & _ & _ & _ & B7).
    apply sbind_err in K. destruct K as [K|([] & w5 & K4 & K)]; [discriminate|].
    rewrite K4 in E2. cbn [snd] in E2. clear K4.
    assert (Ea5 : w_aero w5 = Some a2) by now rewrite E2.
    rewrite (sbind_run _ _ _ _ _ (get_aero_some _ _ _ _ Ea5)) in K.
    assert (Ey : dgetd (an a2) "yaw_rate" n0 = dgetd (an a) "yaw_rate" n0) by (rewrite B7, A7; now rewrite !dgetd_dset_other).
    rewrite Ey in K.
    apply sbind_err in K. destruct K as [K|([f3 b3] & w6 & K5 & K)].
    { destruct (around_aero_fails _ _ _ _ _ _ _ K Ea5) as (l & k & a' & D1 & D2 & D3).
      rewrite B7, A7 in D2. rewrite E2, E1 in D1, D2. cbn [w_ctl w_files w_log w_model] in D1, D2.
      exists ([c1; c2] ++ [c3; c4] ++ l)%list, k, a'. cbv zeta. split; [rewrite D1 at 1; now rewrite <- !app_assoc|]. split; [tauto|exact D3]. }
    apply sbind_err in K. destruct K as [K|([] & w7 & K6 & K)]; discriminate.
  Qed.

  Lemma around_ctl_fails key x0 d (w : W) e w' a c :
    around_ctl H key x0 d w = (Err e, w') -> w_aero w = Some a -> given a -> w_ctl w = Some c ->
    exists l k a' c', w' = MkW (Some a') (Some c') (w_model w') (w_files w) (w_log w ++ l ++ [k]) /\
      (failed_at k (an a) (Some (dset c key (nsub x0 d))) e \/ failed_at k (an a) (Some (dset c key (nadd x0 d))) e) /\
      an a' = an a /\ k_c k = Some c'.
  Proof.
    intros K Ea Ha Ec. unfold around_ctl in K.
    apply sbind_err in K. destruct K as [K|(u & w1 & K1 & K)]; [discriminate|].
    unfold set_ctl, smod in K1. injection K1 as _ <-. rewrite Ec in K. cbn [option_map put_ctl] in K.
    apply sbind_err in K. destruct K as [K|(r1 & w2 & K2 & K)].
    - destruct (do_solve_run H keeps _ _ _ a K Ea Ha) as (a1 & A1 & _ & A2 & A3).
      cbn [put_ctl w_ctl w_files w_log w_model] in *.
      eexists [], (MkCall _ _ _ _), a1, _. split; [exact A3|]. split; [left; repeat split|]. split; [exact A1|reflexivity].
    - destruct (do_solve_run H keeps _ _ _ a K2 Ea Ha) as (a1 & A1 & A1' & A2 & A3).
      apply sbind_err in K. destruct K as [K|(u' & w3 & K3 & K)]; [discriminate|].
      unfold set_ctl, smod in K3. injection K3 as _ <-. rewrite A3 in K. cbn [option_map put_ctl w_ctl] in K.
      apply sbind_err in K. destruct K as [K|(r2 & w4 & K4 & K)]; [|discriminate].
      destruct (do_solve_run H keeps _ _ _ a1 K eq_refl A1') as (a2 & B1 & _ & B2 & B3).
      cbn [w_ctl w_files w_log an put_ctl w_model w_aero] in *.
      eexists [_], (MkCall _ _ _ _), a2, _. split; [rewrite <- app_assoc in B3; exact B3|].
      split; [right|split; [congruence|reflexivity]]. unfold failed_at. cbn [k_a k_c k_r]. rewrite dset_twice. auto.
  Qed.

  Lemma control_fails w e w' a c r : h_refs H = Some r -> w_aero w = Some a -> given a -> w_ctl w = Some c ->
    control_body H w = (Err e, w') ->
    exists l k a' c', w' = MkW (Some a') (Some c') (w_model w') (w_files w) (w_log w ++ l ++ [k]) /\
      let a0 := dgetd c "aileron" n0 in let e0 := dgetd c "elevator" n0 in
      let r0 := dgetd c "rudder" n0 in let f0 := dgetd c "flap" n0 in
      let x1 := dset c "aileron" a0 in let x2 := dset x1 "elevator" e0 in let x3 := dset x2 "rudder" r0 in
      (failed_at k (an a) (Some (dset c "aileron" (nsub a0 ctl_step))) e \/
       failed_at k (an a) (Some (dset c "aileron" (nadd a0 ctl_step))) e \/
       failed_at k (an a) (Some (dset x1 "elevator" (nsub e0 ctl_step))) e \/
       failed_at k (an a) (Some (dset x1 "elevator" (nadd e0 ctl_step))) e \/
       failed_at k (an a) (Some (dset x2 "rudder" (nsub r0 ctl_step))) e \/
       failed_at k (an a) (Some (dset x2 "rudder" (nadd r0 ctl_step))) e \/
       failed_at k (an a) (Some (dset x3 "flap" (nsub f0 ctl_step))) e \/
       failed_at k (an a) (Some (dset x3 "flap" (nadd f0 ctl_step))) e) /\
      an a' = an a /\ k_c k = Some c'.
  Proof.
    intros Er Ea Ha Ec K. unfold control_body in K.
    rewrite (sbind_run _ _ _ _ _ (dpa_run _ _ _ Er Ea)) in K.
    rewrite (sbind_run _ _ _ _ _ (need_run _ _ Er)) in K. cbv zeta in K. fold (@ctl_step T N) in K.
    rewrite (sbind_run _ _ _ _ _ (get_ctl_some _ _ _ _ Ec)) in K.
    apply sbind_err in K. destruct K as [K|([f1 b1] & w1 & K1 & K)].
    { destruct (around_ctl_fails _ _ _ _ _ _ _ _ K Ea Ha Ec) as (l & k & a' & c' & A1 & A2 & A3). exists l, k, a', c'. cbv zeta. tauto. }
    destruct (pair_ctl_flow H keeps _ _ _ (dgetd c "aileron" n0) _ _ _ _ _ _ K1 Ea Ec) as (c1 & c2 & a1 & E1 & _ & _ & _ & _ & _ & _ & A7 & A8).
    apply sbind_err in K. destruct K as [K|([] & w3 & K2 & K)]; [discriminate|]. rewrite K2 in E1. cbn [snd] in E1. clear K2.
    assert (Ea3 : w_aero w3 = Some a1) by now rewrite E1.
    assert (Ec3 : w_ctl w3 = Some (dset c "aileron" (dgetd c "aileron" n0))) by now rewrite E1.
    assert (Ha3 : given a1) by tauto.
    rewrite (sbind_run _ _ _ _ _ (get_ctl_some _ _ _ _ Ec3)) in K. rewrite dgetd_dset_other in K by discriminate.
    apply sbind_err in K. destruct K as [K|([f2 b2] & w4 & K3 & K)].
    { destruct (around_ctl_fails _ _ _ _ _ _ _ _ K Ea3 Ha3 Ec3) as (l & k & a' & c' & B1 & B2 & B3 & B4).
      rewrite A7 in B2, B3. rewrite E1 in B1. cbn [w_ctl w_files w_log w_model] in B1.
      exists ([c1; c2] ++ l)%list, k, a', c'. cbv zeta. split; [rewrite B1 at 1; now rewrite <- !app_assoc|]. tauto. }
    destruct (pair_ctl_flow H keeps _ _ _ (dgetd c "elevator" n0) _ _ _ _ _ _ K3 Ea3 Ec3) as (c3 & c4 & a2 & E2 & _ & _ & _ & _ & _ & _ & B7 & B8).
    apply sbind_err in K. destruct K as [K|([] & w5 & K4 & K)]; [discriminate|]. rewrite K4 in E2. cbn [snd] in E2. clear K4.
    assert (Ea5 : w_aero w5 = Some a2) by now rewrite E2.
    assert (Ec5 : w_ctl w5 = Some (dset (dset c "aileron" (dgetd c "aileron" n0)) "elevator" (dgetd c "elevator" n0))) by now rewrite E2.
    assert (Ha5 : given a2) by tauto.
    rewrite (sbind_run _ _ _ _ _ (get_ctl_some _ _ _ _ Ec5)) in K. rewrite !dgetd_dset_other in K by discriminate.
    apply sbind_err in K. destruct K as [K|([f3 b3] & w6 & K5 & K)].
    { destruct (around_ctl_fails _ _ _ _ _ _ _ _ K Ea5 Ha5 Ec5) as (l & k & a' & c' & D1 & D2 & D3 & D4).
      rewrite B7, A7 in D2, D3. rewrite E2, E1 in D1. cbn [w_ctl w_files w_log w_model] in D1.
      exists ([c1; c2] ++ [c3; c4] ++ l)%list, k, a', c'. cbv zeta. split; [rewrite D1 at 1; now rewrite <- !app_assoc|]. tauto. }
    destruct (pair_ctl_flow H keeps _ _ _ (dgetd c "rudder" n0) _ _ _ _ _ _ K5 Ea5 Ec5) as (c5 & c6 & a3 & E3 & _ & _ & _ & _ & _ & _ & D7 & D8).
    apply sbind_err in K. destruct K as [K|([] & w7 & K6 & K)]; [discriminate|]. rewrite K6 in E3. cbn [snd] in E3. clear K6.
    assert (Ea7 : w_aero w7 = Some a3) by now rewrite E3.
    assert (Ec7 : w_ctl w7 = Some (dset (dset (dset c "aileron" (dgetd c "aileron" n0)) "elevator" (dgetd c "elevator" n0)) "rudder" (dgetd c "rudder" n0))) by now rewrite E3.
    assert (Ha7 : given a3) by tauto.
    rewrite (sbind_run _ _ _ _ _ (get_ctl_some _ _ _ _ Ec7)) in K. rewrite !dgetd_dset_other in K by discriminate.
    apply sbind_err in K. destruct K as [K|([f4 b4] & w8 & K7 & K)].
    { destruct (around_ctl_fails _ _ _ _ _ _ _ _ K Ea7 Ha7 Ec7) as (l & k & a' & c' & F1 & F2 & F3 & F4).
      rewrite D7, B7, A7 in F2, F3. rewrite E3, E2, E1 in F1. cbn [w_ctl w_files w_log w_model] in F1.
      exists ([c1; c2] ++ [c3; c4] ++ [c5; c6] ++ l)%list, k, a', c'. cbv zeta. split; [rewrite F1 at 1; now rewrite <- !app_assoc|]. tauto. }
    apply sbind_err in K. destruct K as [K|([] & w9 & K8 & K)]; discriminate.
  Qed.
End G.

(** *** the left-over flap (airplanes without propellers) *)
Lemma in_force_app {T} n (h1 h2 : list (solve_call T)) : forall old,
  control_in_force n old (h1 ++ h2) = control_in_force n (control_in_force n old h1) h2.
Proof. induction h1 as [|k h1 IH]; intros old; [reflexivity|]. cbn [control_in_force app]. apply IH. Qed.

Section W.
  Context {T : Type} {N : num_ops T}.
  Variable E : menv T.
  Variable X : machup T.
  Variable ps : option (dict (pval T)).
  Notation H := (host_of E X ps).
  Hypothesis no_props : mm_props X = [].
  Variable g : grid T.
  Hypothesis wings : mm_grid X = Some g.

  Definition in_force (h : list (mu_call T)) : option (dict T) := control_in_force (g_num g) None (map to_ll h).

  Lemma solve_returns_usable a c s r a' s' : h_solve H a c s = (Ok r, a', s') -> usable_flowb (g_num g) (Some a) = true.
  Proof.
    cbn [host_of h_solve]. unfold solve_parts. rewrite no_props, wings. intros K.
    destruct (usable_flowb (g_num g) (Some a)) eqn:Eu; [reflexivity|exfalso].
    destruct (process_aero_err g (mm_cg X) (Some a) (m_ll s) Eu) as (e & Ke & _).
    unfold ll_solve in K. unfold sbind in K. rewrite Ke in K. discriminate.
  Qed.
  Lemma omitted_solve h a c0 c : omitted_control c0 -> in_force h = Some c ->
    h_solve H a c0 (mu_after E X h) = h_solve H a (Some c) (mu_after E X h).
  Proof.
    intros Hc Hf. cbn [host_of h_solve]. unfold solve_parts. rewrite no_props, wings.
    rewrite (mu_after_ll E X g h wings no_props). rewrite (omitted_control_keeps (me_lsolve E) g (map to_ll h) (mm_cg X) "linear" (Some a) Hc Hf). reflexivity.
  Qed.
  Lemma performed_omitted c : c <> [] -> forall l h s', in_force h = Some c -> performed H (mu_after E X h) l s' ->
    Forall (fun k => omitted_control (k_c k)) l ->
    Forall (fun k => given (k_a k) -> k_r k = forces E X ps (k_a k) (Some c)) l.
  Proof.
    intros Hc. induction l as [|k l IH]; intros h s' Hf Hp Hl; [constructor|].
    inversion Hl as [|? ? Ho Hl']; subst. destruct Hp as [[a K1] K2]. constructor.
    - intros Hg. rewrite (omitted_solve _ _ _ _ Ho Hf) in K1.
      assert (Hg2 : given_control (Some c)) by (exists c; auto).
      pose proof (wings_forces E X ps h (k_a k) (Some c : option (dict T)) no_props Hg Hg2) as K3. change (@Some (list (string * T)) c) with (@Some (dict T) c) in K3. rewrite K1 in K3. exact K3.
    - assert (K3 : k_after k = mu_after E X (h ++ [MkMuCall (mm_cg X) ps (k_a k) (k_c k)])).
      { unfold mu_after. rewrite fold_left_app. cbn [fold_left mc_cg mc_ps mc_aero mc_ctl]. fold (mu_after E X h).
        replace (with_cg (mm_cg X) X) with X by (destruct X; reflexivity). now rewrite K1. }
      rewrite K3 in K2. apply (IH _ _) in K2; auto. unfold in_force. rewrite map_app, in_force_app. fold (in_force h). rewrite Hf.
      cbn [map to_ll control_in_force k_ctl mc_ctl]. destruct Ho as [->| ->]; reflexivity.
  Qed.
End W.
