(** The derivative functions of MachUp. *)
From Coq Require Import Reals ZArith String Bool Arith Lia Lra List.
From Verif Require Import Base Num RVec Geometry Grid LLModel PropModel MU Spec_MU MU_thm.
Import ListNotations.
Local Open Scope string_scope.

Section Generic.
  Context {T : Type} {N : num_ops T} {S : Type}.
  Variable H : host T S.
  Notation W := (world T S).
  Hypothesis keeps : forall a c s r a' s', h_solve H a c s = (r, a', s') ->
    an a' = an a /\ (als a <> None -> als a' <> None).

  Definition dpa (a : dict T) (r : refs T) : T :=
    (ndec 5 1 * dgetd a "rho" (ndec 23769 7) * (dgetd a "V_mag" (nint 10) * dgetd a "V_mag" (nint 10)) * r_Sw r)%num.

  Lemma get_aero_some k x (w : W) a : w_aero w = Some a -> get_aero k x w = (Ok (dgetd (an a) k x), w).
  Proof. intros E. unfold get_aero. now rewrite E. Qed.
  Lemma get_ctl_some k x (w : W) c : w_ctl w = Some c -> get_ctl k x w = (Ok (dgetd c k x), w).
  Proof. intros E. unfold get_ctl. now rewrite E. Qed.
  Lemma sbind_run {A B} (m : st W A) (f : A -> st W B) w a w1 : m w = (Ok a, w1) -> sbind m f w = f a w1.
  Proof. intros E. unfold sbind. now rewrite E. Qed.
  Lemma need_refs_ok w r w' : need_refs H w = (Ok r, w') -> h_refs H = Some r /\ w' = w.
  Proof. unfold need_refs. destruct (h_refs H); cbn; intros K; [|discriminate]. injection K as <- <-. auto. Qed.
  Lemma dpa_ok w q w' a : dynamic_pressure_area H w = (Ok q, w') -> w_aero w = Some a ->
    exists r, h_refs H = Some r /\ w' = w /\ q = dpa (an a) r.
  Proof.
    intros K Ea. unfold dynamic_pressure_area in K.
    rewrite (sbind_run _ _ _ _ _ (get_aero_some _ _ _ _ Ea)) in K.
    rewrite (sbind_run _ _ _ _ _ (get_aero_some _ _ _ _ Ea)) in K.
    apply sbind_ok in K. destruct K as (r & w1 & K1 & K). apply need_refs_ok in K1. destruct K1 as (K1 & ->).
    exists r. cbn in K. injection K as <- <-. auto.
  Qed.

  (** one pair of solves with the restoring assignment *)
  Lemma pair_aero key x0 d y w f b w1 a :
    around_aero H key x0 d w = (Ok (f, b), w1) -> w_aero w = Some a ->
    exists c1 c2 a', snd (set_aero key y w1) = MkW (Some a') (w_ctl w) (w_model w1) (w_files w) (w_log w ++ [c1; c2]) /\
      an (k_a c1) = dset (an a) key (nsub x0 d) /\ an (k_a c2) = dset (an a) key (nadd x0 d) /\
      k_c c1 = w_ctl w /\ k_c c2 = w_ctl w /\ k_r c1 = Ok b /\ k_r c2 = Ok f /\
      an a' = dset (an a) key y.
  Proof.
    intros K Ea. destruct (around_aero_ok H keeps _ _ _ _ _ _ _ _ K Ea) as (c1 & c2 & a' & E1 & A1 & A2 & A3 & A4 & A5 & A6 & A7).
    exists c1, c2, (MkAero (dset (an a') key y) (als a')). cbn. rewrite E1. cbn.
    repeat (split; [solve [auto]|]). rewrite A7. apply dset_twice.
  Qed.

  Lemma stability_ok w d w' a :
    stability_body H w = (Ok d, w') -> w_aero w = Some a ->
    exists r c1 c2 c3 c4 b1 f1 b2 f2 a',
      h_refs H = Some r /\
      w' = MkW (Some a') (w_ctl w) (w_model w') (w_files w) (w_log w ++ [c1; c2; c3; c4]) /\
      let a0 := dgetd (an a) "alpha" n0 in let b0 := dgetd (an a) "beta" n0 in
      let restored := dset (an a) "alpha" a0 in
      an (k_a c1) = dset (an a) "alpha" (nsub a0 (ndec 5 1)) /\ an (k_a c2) = dset (an a) "alpha" (nadd a0 (ndec 5 1)) /\
      an (k_a c3) = dset restored "beta" (nsub b0 (ndec 5 1)) /\ an (k_a c4) = dset restored "beta" (nadd b0 (ndec 5 1)) /\
      map (@k_c T S) [c1; c2; c3; c4] = repeat (w_ctl w) 4 /\
      map (@k_r T S) [c1; c2; c3; c4] = map Ok [b1; f1; b2; f2] /\
      an a' = dset restored "beta" b0 /\
      let scale x := ndiv (ndiv (ndiv x n2) (nrad (ndec 5 1))) (dpa (an a) r) in
      d = (nine "_a" scale r f1 b1 ++ nine "_b" scale r f2 b2)%list.
  Proof.
    intros K Ea. unfold stability_body in K.
    apply sbind_ok in K. destruct K as (q & w1 & K1 & K).
    destruct (dpa_ok _ _ _ _ K1 Ea) as (r & Er & -> & ->).
    apply sbind_ok in K. destruct K as (r' & w1 & K2 & K). apply need_refs_ok in K2. destruct K2 as (K2 & ->).
    assert (r' = r) by congruence. subst r'. cbv zeta in K.
    rewrite (sbind_run _ _ _ _ _ (get_aero_some _ _ _ _ Ea)) in K.
    apply sbind_ok in K. destruct K as ([f1 b1] & w2 & K3 & K).
    destruct (pair_aero _ _ _ (dgetd (an a) "alpha" n0) _ _ _ _ _ K3 Ea) as (c1 & c2 & a1 & E1 & A1 & A2 & A3 & A4 & A5 & A6 & A7).
    apply sbind_ok in K. destruct K as ([] & w3 & K4 & K). rewrite K4 in E1. cbn [snd] in E1. clear K4.
    assert (Ea3 : w_aero w3 = Some a1) by now rewrite E1.
    rewrite (sbind_run _ _ _ _ _ (get_aero_some _ _ _ _ Ea3)) in K.
    apply sbind_ok in K. destruct K as ([f2 b2] & w4 & K5 & K).
    destruct (pair_aero _ _ _ (dgetd (an a1) "beta" n0) _ _ _ _ _ K5 Ea3) as (c3 & c4 & a2 & E2 & B1 & B2 & B3 & B4 & B5 & B6 & B7).
    apply sbind_ok in K. destruct K as ([] & w5 & K6 & K). rewrite K6 in E2. cbn [snd] in E2. clear K6.
    assert (Eb : dgetd (an a1) "beta" n0 = dgetd (an a) "beta" n0) by (rewrite A7; now rewrite dgetd_dset_other).
    injection K as <- <-. rewrite Eb in *.
    exists r, c1, c2, c3, c4, b1, f1, b2, f2, a2. cbv zeta.
    split; [exact Er|]. split.
    { rewrite E2, E1. cbn. rewrite <- app_assoc. reflexivity. }
    rewrite A1, A2, B1, B2, B7, A7. cbn [map repeat]. rewrite A3, A4, A5, A6, B3, B4, B5, B6, E1. cbn.
    repeat split.
  Qed.

  Lemma damping_ok w d w' a :
    damping_body H w = (Ok d, w') -> w_aero w = Some a ->
    exists r c1 c2 c3 c4 c5 c6 b1 f1 b2 f2 b3 f3 a',
      h_refs H = Some r /\
      w' = MkW (Some a') (w_ctl w) (w_model w') (w_files w) (w_log w ++ [c1; c2; c3; c4; c5; c6]) /\
      let V := dgetd (an a) "V_mag" (nint 10) in
      let p0 := dgetd (an a) "roll_rate" n0 in let q0 := dgetd (an a) "pitch_rate" n0 in
      let r0 := dgetd (an a) "yaw_rate" n0 in
      let dlat := ndiv (nmul (nmul (ndec 5 3) n2) V) (r_lat r) in
      let dlong := ndiv (nmul (nmul (ndec 5 3) n2) V) (r_long r) in
      let e1 := dset (an a) "roll_rate" p0 in let e2 := dset e1 "pitch_rate" q0 in
      an (k_a c1) = dset (an a) "roll_rate" (nsub p0 dlat) /\ an (k_a c2) = dset (an a) "roll_rate" (nadd p0 dlat) /\
      an (k_a c3) = dset e1 "pitch_rate" (nsub q0 dlong) /\ an (k_a c4) = dset e1 "pitch_rate" (nadd q0 dlong) /\
      an (k_a c5) = dset e2 "yaw_rate" (nsub r0 dlat) /\ an (k_a c6) = dset e2 "yaw_rate" (nadd r0 dlat) /\
      map (@k_c T S) [c1; c2; c3; c4; c5; c6] = repeat (w_ctl w) 6 /\
      map (@k_r T S) [c1; c2; c3; c4; c5; c6] = map Ok [b1; f1; b2; f2; b3; f3] /\
      an a' = dset e2 "yaw_rate" q0 /\
      let DP := nmul (nmul (nmul (nmul (ndec 5 1) (dgetd (an a) "rho" (ndec 23769 7))) V) V) (r_Sw r) in
      let scale x := ndiv x (nmul (nmul n2 (ndec 5 3)) DP) in
      d = (nine "_pbar" scale r f1 b1 ++ nine "_qbar" scale r f2 b2 ++ nine "_rbar" scale r f3 b3)%list.
  Proof.
    intros K Ea. unfold damping_body in K.
    rewrite (sbind_run _ _ _ _ _ (get_aero_some _ _ _ _ Ea)) in K.
    rewrite (sbind_run _ _ _ _ _ (get_aero_some _ _ _ _ Ea)) in K.
    apply sbind_ok in K. destruct K as (r & w1 & K2 & K). apply need_refs_ok in K2. destruct K2 as (Er & ->).
    cbv zeta in K. rewrite (sbind_run _ _ _ _ _ (get_aero_some _ _ _ _ Ea)) in K.
    apply sbind_ok in K. destruct K as ([f1 b1] & w2 & K3 & K).
    destruct (pair_aero _ _ _ (dgetd (an a) "roll_rate" n0) _ _ _ _ _ K3 Ea) as (c1 & c2 & a1 & E1 & A1 & A2 & A3 & A4 & A5 & A6 & A7).
    apply sbind_ok in K. destruct K as ([] & w3 & K4 & K). rewrite K4 in E1. cbn [snd] in E1. clear K4.
    assert (Ea3 : w_aero w3 = Some a1) by now rewrite E1.
    rewrite (sbind_run _ _ _ _ _ (get_aero_some _ _ _ _ Ea3)) in K.
    assert (Eq : dgetd (an a1) "pitch_rate" n0 = dgetd (an a) "pitch_rate" n0) by (rewrite A7; now rewrite dgetd_dset_other).
    rewrite Eq in K.
    apply sbind_ok in K. destruct K as ([f2 b2] & w4 & K5 & K).
    destruct (pair_aero _ _ _ (dgetd (an a) "pitch_rate" n0) _ _ _ _ _ K5 Ea3) as (c3 & c4 & a2 & E2 & B1 & B2 & B3 & B4 & B5 & B6 & B7).
    apply sbind_ok in K. destruct K as ([] & w5 & K6 & K). rewrite K6 in E2. cbn [snd] in E2. clear K6.
    assert (Ea5 : w_aero w5 = Some a2) by now rewrite E2.
    rewrite (sbind_run _ _ _ _ _ (get_aero_some _ _ _ _ Ea5)) in K.
    assert (Ey : dgetd (an a2) "yaw_rate" n0 = dgetd (an a) "yaw_rate" n0) by (rewrite B7, A7; now rewrite !dgetd_dset_other).
    rewrite Ey in K.
    apply sbind_ok in K. destruct K as ([f3 b3] & w6 & K7 & K).
    destruct (pair_aero _ _ _ (dgetd (an a) "pitch_rate" n0) _ _ _ _ _ K7 Ea5) as (c5 & c6 & a3 & E3 & D1 & D2 & D3 & D4 & D5 & D6 & D7).
    apply sbind_ok in K. destruct K as ([] & w7 & K8 & K). rewrite K8 in E3. cbn [snd] in E3. clear K8.
    injection K as <- <-.
    exists r, c1, c2, c3, c4, c5, c6, b1, f1, b2, f2, b3, f3, a3. cbv zeta.
    split; [exact Er|]. split.
    { rewrite E3, E2, E1. cbn. rewrite <- !app_assoc. reflexivity. }
    rewrite A1, A2, B1, B2, D1, D2, D7, B7, A7. cbn [map repeat].
    rewrite A3, A4, A5, A6, B3, B4, B5, B6, D3, D4, D5, D6, E2, E1. cbn. repeat split.
  Qed.

  (** one pair of solves around a control deflection *)
  Lemma pair_ctl key x0 d y w f b w1 c :
    around_ctl H key x0 d w = (Ok (f, b), w1) -> w_ctl w = Some c ->
    exists c1 c2 o, snd (set_ctl key y w1) = MkW o (Some (dset c key y)) (w_model w1) (w_files w) (w_log w ++ [c1; c2]) /\
      k_c c1 = Some (dset c key (nsub x0 d)) /\ k_c c2 = Some (dset c key (nadd x0 d)) /\
      k_r c1 = Ok b /\ k_r c2 = Ok f /\
      (forall a, w_aero w = Some a -> given a ->
         an (k_a c1) = an a /\ an (k_a c2) = an a /\ exists a', o = Some a' /\ given a' /\ an a' = an a) /\
      (aero_given w = false -> k_a c1 = default_aero /\ k_a c2 = default_aero /\ o = w_aero w).
  Proof.
    intros K Ec. destruct (around_ctl_ok H keeps _ _ _ _ _ _ _ _ K Ec) as (c1 & c2 & o & E1 & A).
    exists c1, c2, o. cbn. rewrite E1. cbn. rewrite dset_twice. split; [reflexivity|]. exact A.
  Qed.

  (** the flow seen by a solve during control_derivatives *)
  Definition same_flow (a : aero_state T) (k : call T S) : Prop :=
    (given a /\ an (k_a k) = an a) \/ (~ given a /\ k_a k = default_aero).

  Lemma pair_ctl_flow key x0 d y w f b w1 a c :
    around_ctl H key x0 d w = (Ok (f, b), w1) -> w_aero w = Some a -> w_ctl w = Some c ->
    exists c1 c2 a', snd (set_ctl key y w1) = MkW (Some a') (Some (dset c key y)) (w_model w1) (w_files w) (w_log w ++ [c1; c2]) /\
      k_c c1 = Some (dset c key (nsub x0 d)) /\ k_c c2 = Some (dset c key (nadd x0 d)) /\
      k_r c1 = Ok b /\ k_r c2 = Ok f /\ same_flow a c1 /\ same_flow a c2 /\ an a' = an a /\ (given a <-> given a').
  Proof.
    intros K Ea Ec. destruct (pair_ctl _ _ _ y _ _ _ _ _ K Ec) as (c1 & c2 & o & E1 & A1 & A2 & A3 & A4 & A5 & A6).
    destruct (aero_given w) eqn:Hg.
    - assert (G : given a). { apply truthy_given. unfold aero_given in Hg. rewrite Ea in Hg. cbn in Hg. now destruct (aero_truthy a). }
      destruct (A5 a Ea G) as (B1 & B2 & a' & -> & B3 & B4). exists c1, c2, a'. unfold same_flow. intuition.
    - assert (G : ~ given a). { intros G. apply truthy_given in G. unfold aero_given in Hg. rewrite Ea in Hg. cbn in Hg. now rewrite G in Hg. }
      destruct (A6 eq_refl) as (B1 & B2 & B3). rewrite Ea in B3. subst o. exists c1, c2, a. unfold same_flow. intuition.
  Qed.
  Lemma same_flow_trans a a' k : an a' = an a -> (given a <-> given a') -> same_flow a' k -> same_flow a k.
  Proof. unfold same_flow. intros E G [[A B]|[A B]]; [left|right]; split; try tauto. congruence. Qed.

  Definition ctl_step := @ndec T N 25 2.
  Lemma control_ok w d w' a c :
    control_body H w = (Ok d, w') -> w_aero w = Some a -> w_ctl w = Some c ->
    exists r c1 c2 c3 c4 c5 c6 c7 c8 b1 f1 b2 f2 b3 f3 b4 f4 a',
      h_refs H = Some r /\
      let a0 := dgetd c "aileron" n0 in let e0 := dgetd c "elevator" n0 in
      let r0 := dgetd c "rudder" n0 in let f0 := dgetd c "flap" n0 in
      let x1 := dset c "aileron" a0 in let x2 := dset x1 "elevator" e0 in
      let x3 := dset x2 "rudder" r0 in let x4 := dset x3 "flap" f0 in
      let log := [c1; c2; c3; c4; c5; c6; c7; c8] in
      w' = MkW (Some a') (Some x4) (w_model w') (w_files w) (w_log w ++ log) /\
      map (@k_c T S) log = map Some
        [dset c "aileron" (nsub a0 ctl_step); dset c "aileron" (nadd a0 ctl_step);
         dset x1 "elevator" (nsub e0 ctl_step); dset x1 "elevator" (nadd e0 ctl_step);
         dset x2 "rudder" (nsub r0 ctl_step); dset x2 "rudder" (nadd r0 ctl_step);
         dset x3 "flap" (nsub f0 ctl_step); dset x3 "flap" (nadd f0 ctl_step)] /\
      map (@k_r T S) log = map Ok [b1; f1; b2; f2; b3; f3; b4; f4] /\
      Forall (same_flow a) log /\ an a' = an a /\
      let scale x := ndiv (ndiv (ndiv x n2) (nrad ctl_step)) (dpa (an a) r) in
      d = (nine "_da" scale r f1 b1 ++ nine "_de" scale r f2 b2 ++ nine "_dr" scale r f3 b3 ++
           nine "_df" scale r f4 b4)%list.
  Proof.
    intros K Ea Ec. unfold control_body in K.
    apply sbind_ok in K. destruct K as (q & w1 & K1 & K).
    destruct (dpa_ok _ _ _ _ K1 Ea) as (r & Er & -> & ->).
    apply sbind_ok in K. destruct K as (r' & w1 & K2 & K). apply need_refs_ok in K2. destruct K2 as (K2 & ->).
    assert (r' = r) by congruence. subst r'. cbv zeta in K. fold ctl_step in K.
    rewrite (sbind_run _ _ _ _ _ (get_ctl_some _ _ _ _ Ec)) in K.
    apply sbind_ok in K. destruct K as ([f1 b1] & w2 & K3 & K).
    destruct (pair_ctl_flow _ _ _ (dgetd c "aileron" n0) _ _ _ _ _ _ K3 Ea Ec) as (c1 & c2 & a1 & E1 & A1 & A2 & A3 & A4 & A5 & A6 & A7 & A8).
    apply sbind_ok in K. destruct K as ([] & w3 & K4 & K). rewrite K4 in E1. cbn [snd] in E1. clear K4.
    assert (Ea3 : w_aero w3 = Some a1) by now rewrite E1.
    assert (Ec3 : w_ctl w3 = Some (dset c "aileron" (dgetd c "aileron" n0))) by now rewrite E1.
    rewrite (sbind_run _ _ _ _ _ (get_ctl_some _ _ _ _ Ec3)) in K. rewrite dgetd_dset_other in K by discriminate.
    apply sbind_ok in K. destruct K as ([f2 b2] & w4 & K5 & K).
    destruct (pair_ctl_flow _ _ _ (dgetd c "elevator" n0) _ _ _ _ _ _ K5 Ea3 Ec3) as (c3 & c4 & a2 & E2 & B1 & B2 & B3 & B4 & B5 & B6 & B7 & B8).
    apply sbind_ok in K. destruct K as ([] & w5 & K6 & K). rewrite K6 in E2. cbn [snd] in E2. clear K6.
    assert (Ea5 : w_aero w5 = Some a2) by now rewrite E2.
    assert (Ec5 : w_ctl w5 = Some (dset (dset c "aileron" (dgetd c "aileron" n0)) "elevator" (dgetd c "elevator" n0))) by now rewrite E2.
    rewrite (sbind_run _ _ _ _ _ (get_ctl_some _ _ _ _ Ec5)) in K. rewrite !dgetd_dset_other in K by discriminate.
    apply sbind_ok in K. destruct K as ([f3 b3] & w6 & K7 & K).
    destruct (pair_ctl_flow _ _ _ (dgetd c "rudder" n0) _ _ _ _ _ _ K7 Ea5 Ec5) as (c5 & c6 & a3 & E3 & D1 & D2 & D3 & D4 & D5 & D6 & D7 & D8).
    apply sbind_ok in K. destruct K as ([] & w7 & K8 & K). rewrite K8 in E3. cbn [snd] in E3. clear K8.
    assert (Ea7 : w_aero w7 = Some a3) by now rewrite E3.
    assert (Ec7 : w_ctl w7 = Some (dset (dset (dset c "aileron" (dgetd c "aileron" n0)) "elevator" (dgetd c "elevator" n0)) "rudder" (dgetd c "rudder" n0))) by now rewrite E3.
    rewrite (sbind_run _ _ _ _ _ (get_ctl_some _ _ _ _ Ec7)) in K. rewrite !dgetd_dset_other in K by discriminate.
    apply sbind_ok in K. destruct K as ([f4 b4] & w8 & K9 & K).
    destruct (pair_ctl_flow _ _ _ (dgetd c "flap" n0) _ _ _ _ _ _ K9 Ea7 Ec7) as (c7 & c8 & a4 & E4 & F1 & F2 & F3 & F4 & F5 & F6 & F7 & F8).
    apply sbind_ok in K. destruct K as ([] & w9 & K10 & K). rewrite K10 in E4. cbn [snd] in E4. clear K10.
    injection K as <- <-.
    exists r, c1, c2, c3, c4, c5, c6, c7, c8, b1, f1, b2, f2, b3, f3, b4, f4, a4. cbv zeta.
    split; [exact Er|]. split.
    { rewrite E4, E3, E2, E1. cbn. rewrite <- !app_assoc. reflexivity. }
    cbn [map]. rewrite A1, A2, B1, B2, D1, D2, F1, F2, A3, A4, B3, B4, D3, D4, F3, F4. split; [reflexivity|]. split; [reflexivity|].
    split; [|split; [congruence|reflexivity]].
    assert (G2 : an a2 = an a /\ (given a <-> given a2)) by (split; [congruence|tauto]).
    assert (G3 : an a3 = an a /\ (given a <-> given a3)) by (split; [destruct G2; congruence|tauto]).
    destruct G2, G3.
    repeat apply Forall_cons; auto; try (eapply same_flow_trans; [| |eassumption]; auto).
  Qed.
End Generic.
