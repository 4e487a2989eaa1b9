(** derivatives() of airplanes without propellers; the left-over flap (C39). *)
From Coq Require Import Reals ZArith String Bool Arith Lia Lra List.
From Verif Require Import Base Num RVec Geometry Grid LLModel PropModel Spec_LL LL_state LL_R MU Spec_MU MU_thm MU_thm2 MU_thm3 MU_thm4 MU_thm5 MU_thm6.
Import ListNotations.
Local Open Scope string_scope.
Local Open Scope R_scope.

Lemma rewritten_nil d k l : rewritten d (k :: l) <> [].
Proof.
  unfold rewritten. generalize (entry d). intros f.
  assert (G : forall l x, x <> [] -> fold_left (fun x k => dset x k (f k)) l x <> []).
  { induction l0 as [|k0 l0 IH]; intros x Hx; [exact Hx|]. apply IH. apply dset_nil. }
  cbn [fold_left]. apply G. apply dset_nil.
Qed.

Lemma central_dset d key x suffix lat long q h f b :
  (forall name, In name (map fst (coefficients 0 0)) -> (name ++ suffix)%string <> key) ->
  central_differences d suffix lat long q h f b -> central_differences (dset d key x) suffix lat long q h f b.
Proof.
  intros Hk K name g len Hin. rewrite dget_dset_other; [now apply K|]. apply not_eq_sym, Hk. revert Hin. unfold coefficients. cbn. intuition congruence.
Qed.
Lemma not_margin suffix :
  forall name, In name (map fst (coefficients 0 0)) -> (name ++ suffix)%string <> "static_margin".
Proof. intros name Hin. cbn in Hin. destruct Hin as [<-|[<-|[<-|[<-|[<-|[<-|[<-|[<-|[<-|[]]]]]]]]]]; discriminate. Qed.

Section W.
  Variable E : menv R.
  Variable X : machup R.
  Variable ps : option (dict (pval R)).
  Notation H := (host_of E X ps).
  Notation F := (forces_of E X ps).
  Hypothesis no_props : mm_props X = [].

  Lemma model_after (w w' : world R (mstate R)) h :
    w_model w = mu_after E X h -> (exists l, w_log w' = (w_log w ++ l)%list /\ performed H (w_model w) l (w_model w')) ->
    exists h', w_model w' = mu_after E X h'.
  Proof. intros Eh (l & _ & K). rewrite Eh in K. apply performed_after in K. destruct K as [K _]. eauto. Qed.

  Lemma derivatives_groups f w a c h d w' :
    w_aero w = Some a -> given a -> als a = None -> w_ctl w = Some c -> c <> [] -> w_model w = mu_after E X h ->
    derivatives H f w = (Ok (Answer d), w') ->
    exists r, mm_refs X = Some r /\
      let a' := rewritten (an a) ["alpha"; "beta"] in
      let c' := rewritten c ["aileron"; "elevator"; "rudder"; "flap"] in
      stability_group F r (an a) c (dv_stab d) /\ control_group F r a' c (dv_cont d) /\
      damping_group F r a' c' (dv_damp d) /\
      exists ma la, dget (dv_stab d) "Cm_a" = Some ma /\ dget (dv_stab d) "CL_a" = Some la /\
        dget (dv_stab d) "static_margin" = Some (- ma / la).
  Proof.
    intros Ea Ha Hp Ec Hc Eh K. destruct (mm_refs X) as [r|] eqn:Er.
    2: { rewrite derivatives_no_wings in K by exact Er. destruct (named f); discriminate. }
    exists r. split; [reflexivity|].
    destruct (derivatives_ok H f w _ _ r Er K) as (stab & cont & damp & w1 & w2 & w3 & ma & la & K1 & K2 & K3 & M1 & M2 & M3 & _).
    injection M3 as ->. cbv zeta. cbn [dv_stab dv_cont dv_damp].
    (* stability *)
    destruct (stability_wings' E X ps no_props _ _ _ _ _ _ Ea Ha Hp Ec Hc Eh K1) as (r1 & R1 & S1). assert (r1 = r) by congruence. subst r1.
    destruct (stability_given H (host_keeps E X ps) _ _ _ _ Ea Ha K1) as (r0 & k1 & k2 & k3 & k4 & b1 & f1 & b2 & f2 & a1 & _ & Ew1 & _ & _ & _ & _ & _ & _ & _ & A1).
    cbv zeta in A1.
    pose proof (honest_stability H w) as Hh. rewrite K1 in Hh. cbn [snd] in Hh. destruct (model_after _ _ _ Eh Hh) as (h1 & Eh1).
    destruct (plain_stability H (wsame E X ps no_props) w) as [P1 _]. { intros a0 K0. rewrite Ea in K0. now injection K0 as <-. }
    rewrite K1 in P1. cbn [snd] in P1.
    assert (Ea1 : w_aero w1 = Some a1) by now rewrite Ew1. assert (Ec1 : w_ctl w1 = Some c) by (rewrite Ew1; exact Ec).
    assert (Ha1 : given a1). { left. rewrite A1. apply dset_nil. }
    assert (Hp1 : als a1 = None) by now apply P1.
    (* control *)
    destruct (control_wings' E X ps no_props _ _ _ _ _ _ Ea1 Ha1 Hp1 Ec1 Hc Eh1 K2) as (r2 & R2 & S2). assert (r2 = r) by congruence. subst r2.
    destruct (control_given H (host_keeps E X ps) _ _ _ _ _ Ea1 Ec1 Hc K2)
      as (r2 & j1 & j2 & j3 & j4 & j5 & j6 & j7 & j8 & d1 & e1 & d2 & e2 & d3 & e3 & d4 & e4 & a2 & _ & Ew2 & _ & _ & _ & _ & _ & _ & _ & _ & _ & A2).
    cbv zeta in Ew2, A2.
    pose proof (honest_control H w1) as Hh2. rewrite K2 in Hh2. cbn [snd] in Hh2. destruct (model_after _ _ _ Eh1 Hh2) as (h2 & Eh2).
    destruct (plain_control H (wsame E X ps no_props) w1) as [P2 _]. { exact P1. }
    rewrite K2 in P2. cbn [snd] in P2.
    assert (Ea2 : w_aero w2 = Some a2) by now rewrite Ew2.
    assert (Ec2 : w_ctl w2 = Some (rewritten c ["aileron"; "elevator"; "rudder"; "flap"])) by now rewrite Ew2.
    assert (Ha2 : given a2). { left. rewrite A2, A1. apply dset_nil. }
    assert (Hp2 : als a2 = None) by now apply P2.
    (* damping *)
    destruct (damping_wings' E X ps no_props _ _ _ _ _ _ Ea2 Ha2 Hp2 Ec2 (rewritten_nil _ _ _) Eh2 K3) as (r3 & R3 & S3). assert (r3 = r) by congruence. subst r3.
    assert (Er1 : an a1 = rewritten (an a) ["alpha"; "beta"]) by exact A1. rewrite Er1 in *. rewrite A2 in *.
    split; [|split; [exact S2|split; [exact S3|]]].
    - destruct S1 as (x1 & x2 & x3 & x4 & S1). exists x1, x2, x3, x4. cbv zeta in *.
      destruct S1 as (T1 & T2 & T3 & T4 & T5 & T6). do 4 (split; [assumption|]).
      split; (apply central_dset; [|assumption]); apply not_margin.
    - exists ma, la. rewrite !dget_dset_other by discriminate. rewrite dget_dset_same. auto.
  Qed.

  (** control_state omitted: the damping group is computed with the flap at 1/4 degree *)
  Lemma derivatives_leftover f w a h d w' :
    w_aero w = Some a -> given a -> als a = None -> omitted_control (w_ctl w) -> w_model w = mu_after E X h ->
    mm_grid X <> None -> derivatives H f w = (Ok (Answer d), w') ->
    exists r, mm_refs X = Some r /\
      damping_group F r (rewritten (an a) ["alpha"; "beta"])
                    [("aileron", 0); ("elevator", 0); ("rudder", 0); ("flap", 1 / 4)] (dv_damp d).
  Proof.
    intros Ea Ha Hp Ho Eh Hg K. destruct (mm_refs X) as [r|] eqn:Er.
    2: { rewrite derivatives_no_wings in K by exact Er. destruct (named f); discriminate. }
    destruct (mm_grid X) as [g|] eqn:Eg; [clear Hg|congruence].
    exists r. split; [reflexivity|].
    destruct (derivatives_ok H f w _ _ r Er K) as (stab & cont & damp & w1 & w2 & w3 & ma & la & K1 & K2 & K3 & M1 & M2 & M3 & _).
    injection M3 as ->. cbn [dv_damp].
    destruct (stability_given H (host_keeps E X ps) _ _ _ _ Ea Ha K1) as (r0 & k1 & k2 & k3 & k4 & b1 & f1 & b2 & f2 & a1 & _ & Ew1 & _ & _ & _ & _ & _ & _ & _ & A1).
    cbv zeta in A1.
    pose proof (honest_stability H w) as Hh. rewrite K1 in Hh. cbn [snd] in Hh. destruct (model_after _ _ _ Eh Hh) as (h1 & Eh1).
    destruct (plain_stability H (wsame E X ps no_props) w) as [P1 _]. { intros a0 K0. rewrite Ea in K0. now injection K0 as <-. }
    rewrite K1 in P1. cbn [snd] in P1.
    assert (Ea1 : w_aero w1 = Some a1) by now rewrite Ew1. assert (Ec1 : w_ctl w1 = w_ctl w) by (rewrite Ew1; reflexivity).
    assert (Ha1 : given a1). { left. rewrite A1. apply dset_nil. }
    assert (Hp1 : als a1 = None) by now apply P1.
    (* control *)
    assert (Hc1 : ctl_given w1 = false). { unfold ctl_given. rewrite Ec1. destruct Ho as [->| ->]; reflexivity. }
    rewrite (control_omitted H w1 Hc1) in K2. set (v := put_ctl (Some default_ctl) w1) in *.
    destruct (control_derivatives H v) as [[cont'|e] w2'] eqn:Kc; cbn [fst snd] in K2; [|discriminate].
    assert (Ew2 : w2 = put_ctl (w_ctl w1) w2') by (now injection K2). clear K2.
    destruct (control_given H (host_keeps E X ps) v a1 default_ctl _ _ Ea1 eq_refl ltac:(discriminate) Kc)
      as (r2 & j1 & j2 & j3 & j4 & j5 & j6 & j7 & j8 & d1 & e1 & d2 & e2 & d3 & e3 & d4 & e4 & a2 & _ & Ew2' & Hf & C1 & C2 & _ & _ & _ & _ & _ & _ & A2).
    cbv zeta in Ew2', A2, Hf, C1, C2.
    change (w_model v) with (w_model w1) in Hf. rewrite Eh1 in Hf.
    destruct (performed_after E X ps _ _ _ Hf) as [Eh2 _].
    match type of Eh2 with _ = mu_after E X ?x => set (h2 := x) in * end.
    set (left := [("aileron", 0); ("elevator", 0); ("rudder", 0); ("flap", 1 / 4)]).
    assert (Hleft : k_c j8 = Some left).
    { cbn [map] in C1. injection C1 as _ _ _ _ _ _ _ C1. rewrite C1. unfold left, default_ctl, entry.
      cbn [dset dget String.eqb Ascii.eqb Bool.eqb]. rnum. do 5 f_equal. f_equal. ring. }
    assert (Hin : in_force g h2 = Some left).
    { assert (U : usable_flowb (g_num g) (Some (k_a j8)) = true).
      { cbn [performed] in Hf. destruct Hf as (_ & _ & _ & _ & _ & _ & _ & (a8 & Hf) & _).
        cbn [map] in C2. injection C2 as _ _ _ _ _ _ _ C2. rewrite C2 in Hf.
        exact (solve_returns_usable E X ps no_props g Eg _ _ _ _ _ _ Hf). }
      unfold in_force, h2. rewrite map_app, in_force_app. cbn [map].
      change [to_ll (MkMuCall (mm_cg X) ps (k_a j1) (k_c j1)); to_ll (MkMuCall (mm_cg X) ps (k_a j2) (k_c j2));
              to_ll (MkMuCall (mm_cg X) ps (k_a j3) (k_c j3)); to_ll (MkMuCall (mm_cg X) ps (k_a j4) (k_c j4));
              to_ll (MkMuCall (mm_cg X) ps (k_a j5) (k_c j5)); to_ll (MkMuCall (mm_cg X) ps (k_a j6) (k_c j6));
              to_ll (MkMuCall (mm_cg X) ps (k_a j7) (k_c j7)); to_ll (MkMuCall (mm_cg X) ps (k_a j8) (k_c j8))]
        with ([to_ll (MkMuCall (mm_cg X) ps (k_a j1) (k_c j1)); to_ll (MkMuCall (mm_cg X) ps (k_a j2) (k_c j2));
              to_ll (MkMuCall (mm_cg X) ps (k_a j3) (k_c j3)); to_ll (MkMuCall (mm_cg X) ps (k_a j4) (k_c j4));
              to_ll (MkMuCall (mm_cg X) ps (k_a j5) (k_c j5)); to_ll (MkMuCall (mm_cg X) ps (k_a j6) (k_c j6));
              to_ll (MkMuCall (mm_cg X) ps (k_a j7) (k_c j7))] ++ [to_ll (MkMuCall (mm_cg X) ps (k_a j8) (k_c j8))])%list.
      rewrite in_force_app. cbn [control_in_force to_ll k_ctl mc_ctl k_aero mc_aero]. rewrite Hleft. unfold left. rewrite U. reflexivity. }
    (* damping *)
    assert (Ea2 : w_aero w2 = Some a2) by (rewrite Ew2, Ew2'; reflexivity).
    assert (Ha2 : given a2). { left. rewrite A2, A1. apply dset_nil. }
    assert (Em2 : w_model w2 = mu_after E X h2) by (rewrite Ew2; exact Eh2).
    assert (Ec2 : omitted_control (w_ctl w2)). { rewrite Ew2. cbn [put_ctl w_ctl]. rewrite Ec1. exact Ho. }
    destruct (plain_damping H (wsame E X ps no_props) w2) as [_ P3].
    { destruct (plain_control H (wsame E X ps no_props) v P1) as [P2 _]. rewrite Kc in P2. cbn [snd] in P2. rewrite Ew2. exact P2. }
    rewrite K3 in P3. cbn [snd] in P3.
    destruct (damping_given H (host_keeps E X ps) _ _ _ _ Ea2 Ha2 K3)
      as (r3 & i1 & i2 & i3 & i4 & i5 & i6 & x1 & y1 & x2 & y2 & x3 & y3 & a3 & Er3 & Ew3 & Hf3 & B1 & B2 & B3 & B4 & B5 & B6 & B7 & B8 & B9 & _).
    cbv zeta in *. assert (r3 = r). { cbn in Er3. congruence. } subst r3.
    rewrite Ew3 in P3. cbn [w_log] in P3. specialize (P3 _ eq_refl).
    rewrite Em2 in Hf3.
    assert (Hom : Forall (fun k : call R (mstate R) => omitted_control (k_c k)) [i1; i2; i3; i4; i5; i6]).
    { repeat apply Forall_cons; try apply Forall_nil;
        match goal with |- omitted_control (k_c ?i) => match goal with B : solved_at i _ _ _ |- _ => destruct B as (_ & -> & _); exact Ec2 end end. }
    pose proof (performed_omitted E X ps no_props g Eg left ltac:(discriminate) _ _ _ Hin Hf3 Hom) as Q.
    assert (Er1 : an a2 = rewritten (an a) ["alpha"; "beta"]) by (rewrite A2; exact A1).
    rewrite Er1 in *.
    assert (Fq : forall k d1 f0, In k [i1; i2; i3; i4; i5; i6] -> solved_at k d1 (w_ctl w2) f0 -> d1 <> [] -> F d1 left = Ok f0).
    { intros k dd f0 Hin0 (Q1 & _ & Q3) Hd. rewrite Forall_forall in Q, P3. specialize (Q k Hin0). specialize (P3 k Hin0).
      unfold forces_of. rewrite <- Q1, <- (plain_eta _ P3), <- Q3. symmetry. apply Q. left. congruence. }
    exists x1, y1, x2, y2, x3, y3. cbv zeta.
    repeat (split; [solve [assumption|eapply Fq; [|eassumption|apply dset_nil]; cbn; tauto]|]). exact B9.
  Qed.
End W.
