(** Mirrored flight of whole airplanes, and derivatives in symmetric flight (C76, C77). *)
From Coq Require Import Reals ZArith String Bool Arith Lia Lra List.
From Verif Require Import Base Num RVec Geometry Api Grid LLModel PropModel Spec_Grid Spec_Geom Spec_LL LL_state LL_thm LL_R
  MU Spec_MU MU_thm MU_thm2 MU_thm3 MU_thm4 MU_thm5 MU_thm7 Spec_Mirror LL_mirror LL_mirror2 LL_mirror3.
Import ListNotations.
Local Open Scope string_scope.
Local Open Scope R_scope.

Lemma zero_mirrored : mirrored_forces (add_fm (zero_fm (T := R)) zero_fm) (add_fm zero_fm zero_fm).
Proof. split; cbn; change n0 with 0; lra. Qed.
Lemma add_mirrored f f' : mirrored_forces f f' -> mirrored_forces (add_fm zero_fm f) (add_fm zero_fm f').
Proof. intros []. split; cbn; change n0 with 0; lra. Qed.

Lemma given_numbers (a : dict R) : a <> [] -> given_aero (Some (numbers a)).
Proof. intros Na. exists (numbers a). split; [reflexivity|]. now left. Qed.

Section Airplane.
  Variable E : menv R.
  Variable pl : airplane R.
  Variable X : machup R.
  Variable ps : option (dict (pval R)).
  Hypothesis Hb : built pl.
  Hypothesis Hs : mirror_symmetric pl.
  Hypothesis HX : make_machup E pl = Ok X.
  Hypothesis Hp : a_props pl = [].
  Hypothesis Hcg : vy (a_cg pl) = 0.
  Hypothesis He : exact_solver (me_lsolve E).

  Lemma machup_parts : mm_props X = [] /\ mm_cg X = a_cg pl /\
    (mm_grid X = None \/ exists g, mm_grid X = Some g /\ make_grid true pl = Ok g).
  Proof.
    unfold make_machup in HX. rewrite Hp in HX. destruct (a_wings pl) eqn:Ew.
    - cbn [rbind] in HX. injection HX as <-. auto.
    - destruct (make_grid true pl) as [g|e]; [|discriminate]. cbn [rbind] in HX. injection HX as <-. cbn. eauto 6.
  Qed.
  Lemma cg_mirror : mm_cg X = mirror (mm_cg X).
  Proof. destruct machup_parts as (_ & -> & _). unfold mirror. destruct (a_cg pl) as [x y z]. cbn in *. subst y. now rewrite Ropp_0. Qed.

  Notation F := (forces_of E X ps).

  Lemma forces_wings g a c f : mm_grid X = Some g -> F a c = Ok f ->
    exists s r, ll_solve (me_lsolve E) g (mm_cg X) "linear" (Some (numbers a)) (Some c) (fresh g) = (Ok TheResultsDict, s) /\
      l_results s = Some r /\ f = add_fm zero_fm (r_total r).
  Proof.
    intros Eg. unfold forces_of, forces. cbn [host_of h_solve]. unfold solve_parts, init_mstate. rewrite Eg.
    destruct machup_parts as (-> & _). cbn [m_ll]. unfold fresh.
    destruct (ll_solve _ _ _ _ _ _ _) as [[r|e] s] eqn:Es; [|cbn; discriminate].
    destruct r. cbn [read_ref]. destruct (l_results s) as [w|] eqn:Er; [|cbn; discriminate].
    cbn [fst snd rbind]. intros K. injection K as <-. exists s, w. auto.
  Qed.

  Lemma forces_mirror a c a' c' f f' :
    a <> [] -> a' <> [] -> c <> [] -> c' <> [] ->
    mirrored_flow (numbers a) (numbers a') -> mirrored_controls c c' ->
    F a c = Ok f -> F a' c' = Ok f' -> mirrored_forces f f'.
  Proof.
    intros Na Na' Nc Nc' Hf Hc K K'. destruct machup_parts as (Ep & Ec & [Eg|(g & Eg & Hg)]).
    - revert K K'. unfold forces_of, forces. cbn [host_of h_solve]. unfold solve_parts. rewrite Ep, Eg. cbn [fst snd rbind].
      intros K K'. injection K as <-. injection K' as <-. apply zero_mirrored.
    - destruct (forces_wings g a c f Eg K) as (s & r & S & R & ->).
      destruct (forces_wings g a' c' f' Eg K') as (s' & r' & S' & R' & ->). apply add_mirrored.
      set (k := MkSolveCall (mm_cg X) "linear" (Some (numbers a)) (Some c)).
      set (k' := MkSolveCall (mm_cg X) "linear" (Some (numbers a')) (Some c')).
      assert (A : acting g [] k = c) by (eapply (acting_given (me_lsolve E)); [reflexivity|exact Nc|exact S]).
      assert (A' : acting g [] k' = c') by (eapply (acting_given (me_lsolve E)); [reflexivity|exact Nc'|exact S']).
      pose proof (C76_lemma (me_lsolve E) true pl g [] [] k k' (numbers a) (numbers a') He Hb Hg Hs eq_refl eq_refl
        (given_numbers a Na) (given_numbers a' Na') Hf cg_mirror eq_refl) as M.
      rewrite A, A' in M. specialize (M Hc).
      assert (B : call_solve (me_lsolve E) g k (after (me_lsolve E) g []) = (Ok TheResultsDict, s)) by exact S.
      assert (B' : call_solve (me_lsolve E) g k' (after (me_lsolve E) g []) = (Ok TheResultsDict, s')) by exact S'.
      rewrite B, B' in M. destruct M as (x & x' & _ & _ & X1 & X2 & X3 & _).
      assert (x = r) by congruence. assert (x' = r') by congruence. subst x x'. apply (mr_total X3).
  Qed.

  (** symmetric flight is its own mirror image *)
  Lemma forces_self a c f : a <> [] -> c <> [] -> symmetric_flight a c -> F a c = Ok f ->
    FS f = 0 /\ FY f = 0 /\ MX f = 0 /\ MZ f = 0.
  Proof.
    intros Na Nc [] K.
    assert (M : mirrored_forces f f).
    { apply (forces_mirror a c a c); auto; split; cbn [numbers als an]; auto; lra. }
    destruct M. repeat split; lra.
  Qed.

  Lemma entry_dset d k x k' : entry (dset d k x) k' = if String.eqb k' k then x else entry d k'.
  Proof.
    unfold entry. destruct (String.eqb_spec k' k) as [->|Hn]; [now rewrite dget_dset_same|rewrite dget_dset_other; auto].
  Qed.
  Ltac which_key := match goal with |- context [String.eqb ?u ?v] => destruct (String.eqb_spec u v) as [<-|_] end.
  Lemma symmetric_dset_a a c k x : symmetric_flight a c -> ~ In k ["beta"; "roll_rate"; "yaw_rate"] ->
    symmetric_flight (dset a k x) c.
  Proof.
    intros [] Hk. cbn [In] in Hk. split; auto; rewrite entry_dset; (which_key; [tauto|auto]).
  Qed.
  Lemma symmetric_dset_c a c k x : symmetric_flight a c -> ~ In k ["aileron"; "rudder"] ->
    symmetric_flight a (dset c k x).
  Proof.
    intros [] Hk. cbn [In] in Hk. split; auto; rewrite entry_dset; (which_key; [tauto|auto]).
  Qed.
  (** writing back the value read changes no entry *)
  Lemma symmetric_restore_a a c k : symmetric_flight a c -> symmetric_flight (dset a k (entry a k)) c.
  Proof. intros []. split; auto; rewrite entry_dset; (which_key; auto). Qed.
  Lemma symmetric_restore_c a c k : symmetric_flight a c -> symmetric_flight a (dset c k (entry c k)).
  Proof. intros []. split; auto; rewrite entry_dset; (which_key; auto). Qed.
  Lemma rewritten_a a c ks : symmetric_flight a c -> symmetric_flight (rewritten a ks) c.
  Proof.
    unfold rewritten. intros Hsy.
    enough (G : forall x, (forall k, entry x k = entry a k) -> forall k, entry (fold_left (fun x k => dset x k (entry a k)) ks x) k = entry a k).
    { destruct Hsy. split; auto; rewrite G; auto. }
    clear. induction ks as [|k0 ks IH]; cbn [fold_left]; intros x Hx k; [apply Hx|].
    apply IH. intros k'. rewrite entry_dset. destruct (String.eqb_spec k' k0) as [->|_]; auto.
  Qed.
  Lemma rewritten_c a c ks : symmetric_flight a c -> symmetric_flight a (rewritten c ks).
  Proof.
    unfold rewritten. intros Hsy.
    enough (G : forall x, (forall k, entry x k = entry c k) -> forall k, entry (fold_left (fun x k => dset x k (entry c k)) ks x) k = entry c k).
    { destruct Hsy. split; auto; rewrite G; auto. }
    clear. induction ks as [|k0 ks IH]; cbn [fold_left]; intros x Hx k; [apply Hx|].
    apply IH. intros k'. rewrite entry_dset. destruct (String.eqb_spec k' k0) as [->|_]; auto.
  Qed.

  (** a step of an even variable has no lateral effect *)
  Lemma even_step d suffix lat long q h a1 c1 a2 c2 b f :
    central_differences d suffix lat long q h f b ->
    a1 <> [] -> c1 <> [] -> a2 <> [] -> c2 <> [] ->
    symmetric_flight a1 c1 -> symmetric_flight a2 c2 -> F a1 c1 = Ok b -> F a2 c2 = Ok f ->
    zero_derivatives lateral d suffix.
  Proof.
    intros Hd N1 N2 N3 N4 S1 S2 K1 K2.
    destruct (forces_self _ _ _ N1 N2 S1 K1) as (B1 & B2 & B3 & B4). destruct (forces_self _ _ _ N3 N4 S2 K2) as (G1 & G2 & G3 & G4).
    intros name Hn. unfold central_differences in Hd.
    assert (Z : forall g len, In (name, (g, len)) (coefficients lat long) -> g f = 0 -> g b = 0 -> dget d (name ++ suffix) = Some 0).
    { intros g len Hin E1 E2. rewrite (Hd _ _ _ Hin), E1, E2. f_equal. unfold Rdiv. ring. }
    cbn [lateral In] in Hn. repeat (destruct Hn as [Hn|Hn]; [subst name|]); [..|contradiction].
    - apply (Z (@FS R) 1); auto. cbn. tauto.
    - apply (Z (@FY R) 1); auto. cbn. tauto.
    - apply (Z (@MX R) lat); auto. cbn. tauto.
    - apply (Z (@MZ R) lat); auto. cbn. tauto.
  Qed.

  (** ... and a step of an odd variable no longitudinal one *)
  Lemma odd_step d suffix lat long q h a1 c1 a2 c2 b f :
    central_differences d suffix lat long q h f b ->
    a1 <> [] -> c1 <> [] -> a2 <> [] -> c2 <> [] ->
    mirrored_flow (numbers a1) (numbers a2) -> mirrored_controls c1 c2 -> F a1 c1 = Ok b -> F a2 c2 = Ok f ->
    zero_derivatives longitudinal d suffix.
  Proof.
    intros Hd N1 N2 N3 N4 S1 S2 K1 K2. destruct (forces_mirror _ _ _ _ _ _ N1 N3 N2 N4 S1 S2 K1 K2).
    intros name Hn. unfold central_differences in Hd.
    assert (Z : forall g len, In (name, (g, len)) (coefficients lat long) -> g f = g b -> dget d (name ++ suffix) = Some 0).
    { intros g len Hin E1. rewrite (Hd _ _ _ Hin), E1. f_equal. unfold Rdiv. ring. }
    cbn [longitudinal In] in Hn. repeat (destruct Hn as [Hn|Hn]; [subst name|]); [..|contradiction].
    - apply (Z (@FL R) 1); auto. cbn. tauto.
    - apply (Z (@FD R) 1); auto. cbn. tauto.
    - apply (Z (@FX R) 1); auto. cbn. tauto.
    - apply (Z (@FZ R) 1); auto. cbn. tauto.
    - apply (Z (@MY R) long); auto. cbn. tauto.
  Qed.

  Lemma mirrored_step_a a c k x : symmetric_flight a c -> In k ["beta"; "roll_rate"; "yaw_rate"] ->
    mirrored_flow (numbers (dset a k (entry a k - x))) (numbers (dset a k (entry a k + x))).
  Proof.
    intros [] Hk. cbn [In] in Hk.
    repeat (destruct Hk as [<-|Hk]); [..|contradiction];
      (split; cbn [numbers als an]; rewrite ?entry_dset; cbn [String.eqb Ascii.eqb Bool.eqb];
       rewrite ?dget_dset_other by discriminate; auto; lra).
  Qed.
  Lemma mirrored_step_c a c k x : symmetric_flight a c -> In k ["aileron"; "rudder"] ->
    mirrored_controls (dset c k (entry c k - x)) (dset c k (entry c k + x)).
  Proof.
    intros [] Hk. cbn [In] in Hk.
    repeat (destruct Hk as [<-|Hk]); [..|contradiction];
      (split; rewrite ?entry_dset; cbn [String.eqb Ascii.eqb Bool.eqb]; auto; lra).
  Qed.
  Lemma mirrored_self_a a c : symmetric_flight a c -> mirrored_flow (numbers a) (numbers a).
  Proof. intros []. split; cbn [numbers als an]; auto; lra. Qed.
  Lemma mirrored_self_c a c : symmetric_flight a c -> mirrored_controls c c.
  Proof. intros []. split; auto; lra. Qed.

  Ltac side := first [assumption | apply dset_nil
                     | apply symmetric_dset_a; [assumption|cbn; intuition discriminate]
                     | apply symmetric_dset_c; [assumption|cbn; intuition discriminate]].
  Lemma stability_decoupled r a c d : c <> [] -> symmetric_flight a c -> stability_group F r a c d ->
    zero_derivatives lateral d "_a" /\ zero_derivatives longitudinal d "_b".
  Proof.
    intros Nc Hsy (b1 & f1 & b2 & f2 & K1 & K2 & K3 & K4 & D1 & D2). cbv zeta in *. split.
    - eapply even_step; [exact D1|..|exact K1|exact K2]; side.
    - pose proof (symmetric_restore_a _ _ "alpha" Hsy) as Hr.
      assert (Eb : entry (dset a "alpha" (entry a "alpha")) "beta" = entry a "beta") by (rewrite entry_dset; reflexivity).
      eapply odd_step; [exact D2|..|exact K3|exact K4]; try side.
      + rewrite <- Eb. eapply mirrored_step_a; [exact Hr|cbn; tauto].
      + eapply mirrored_self_c; eauto.
  Qed.

  Lemma damping_decoupled r a c d : c <> [] -> symmetric_flight a c -> damping_group F r a c d ->
    zero_derivatives longitudinal d "_pbar" /\ zero_derivatives lateral d "_qbar" /\ zero_derivatives longitudinal d "_rbar".
  Proof.
    intros Nc Hsy (b1 & f1 & b2 & f2 & b3 & f3 & K1 & K2 & K3 & K4 & K5 & K6 & D1 & D2 & D3). cbv zeta in *.
    set (a1 := dset a "roll_rate" (entry a "roll_rate")) in *.
    assert (H1 : symmetric_flight a1 c) by (apply symmetric_restore_a, Hsy).
    assert (E1 : entry a1 "pitch_rate" = entry a "pitch_rate") by (unfold a1; rewrite entry_dset; reflexivity).
    assert (E1' : entry a1 "yaw_rate" = entry a "yaw_rate") by (unfold a1; rewrite entry_dset; reflexivity).
    rewrite <- E1 in *.
    set (a2 := dset a1 "pitch_rate" (entry a1 "pitch_rate")) in *.
    assert (H2 : symmetric_flight a2 c) by (apply symmetric_restore_a, H1).
    assert (E2 : entry a2 "yaw_rate" = entry a "yaw_rate") by (unfold a2; rewrite entry_dset; exact E1').
    rewrite <- E2 in *.
    split; [|split].
    - eapply odd_step; [exact D1|..|exact K1|exact K2]; try side.
      + eapply mirrored_step_a; [exact Hsy|cbn; tauto].
      + eapply mirrored_self_c; eauto.
    - eapply even_step; [exact D2|..|exact K3|exact K4]; side.
    - eapply odd_step; [exact D3|..|exact K5|exact K6]; try side.
      + eapply mirrored_step_a; [exact H2|cbn; tauto].
      + eapply mirrored_self_c; eauto.
  Qed.

  Lemma control_decoupled r a c d : a <> [] -> symmetric_flight a c -> control_group F r a c d ->
    zero_derivatives longitudinal d "_da" /\ zero_derivatives lateral d "_de" /\
    zero_derivatives longitudinal d "_dr" /\ zero_derivatives lateral d "_df".
  Proof.
    intros Na Hsy (b1 & f1 & b2 & f2 & b3 & f3 & b4 & f4 & K1 & K2 & K3 & K4 & K5 & K6 & K7 & K8 & D1 & D2 & D3 & D4). cbv zeta in *.
    set (c1 := dset c "aileron" (entry c "aileron")) in *.
    assert (H1 : symmetric_flight a c1) by (apply symmetric_restore_c, Hsy).
    assert (E1 : entry c1 "elevator" = entry c "elevator") by (unfold c1; rewrite entry_dset; reflexivity).
    assert (E1' : entry c1 "rudder" = entry c "rudder") by (unfold c1; rewrite entry_dset; reflexivity).
    rewrite <- E1 in *.
    set (c2 := dset c1 "elevator" (entry c1 "elevator")) in *.
    assert (H2 : symmetric_flight a c2) by (apply symmetric_restore_c, H1).
    assert (E2 : entry c2 "rudder" = entry c "rudder") by (unfold c2; rewrite entry_dset; exact E1').
    rewrite <- E2 in *.
    set (c3 := dset c2 "rudder" (entry c2 "rudder")) in *.
    assert (H3 : symmetric_flight a c3) by (apply symmetric_restore_c, H2).
    split; [|split; [|split]].
    - eapply odd_step; [exact D1|..|exact K1|exact K2]; try side.
      + eapply mirrored_self_a; eauto.
      + eapply mirrored_step_c; [exact Hsy|cbn; tauto].
    - eapply even_step; [exact D2|..|exact K3|exact K4]; side.
    - eapply odd_step; [exact D3|..|exact K5|exact K6]; try side.
      + eapply mirrored_self_a; eauto.
      + eapply mirrored_step_c; [exact H2|cbn; tauto].
    - eapply even_step; [exact D4|..|exact K7|exact K8]; side.
  Qed.

  Lemma derivatives_decoupled file w a c h d w' :
    w_aero w = Some a -> given a -> als a = None -> w_ctl w = Some c -> c <> [] -> w_model w = mu_after E X h ->
    symmetric_flight (an a) c ->
    derivatives (host_of E X ps) file w = (Ok (Answer d), w') ->
    zero_derivatives lateral (dv_stab d) "_a" /\ zero_derivatives longitudinal (dv_stab d) "_b" /\
    zero_derivatives longitudinal (dv_cont d) "_da" /\ zero_derivatives lateral (dv_cont d) "_de" /\
    zero_derivatives longitudinal (dv_cont d) "_dr" /\ zero_derivatives lateral (dv_cont d) "_df" /\
    zero_derivatives longitudinal (dv_damp d) "_pbar" /\ zero_derivatives lateral (dv_damp d) "_qbar" /\
    zero_derivatives longitudinal (dv_damp d) "_rbar".
  Proof.
    intros Ea Ha Hl Ec Hc Eh Hsy K. destruct machup_parts as (Ep & _).
    destruct (derivatives_groups E X ps Ep file w a c h d w' Ea Ha Hl Ec Hc Eh K) as (r & _ & G1 & G2 & G3 & _).
    destruct (stability_decoupled _ _ _ _ Hc Hsy G1) as (? & ?).
    destruct (control_decoupled _ _ _ _ ltac:(apply dset_nil) (rewritten_a _ _ ["alpha"; "beta"] Hsy) G2) as (? & ? & ? & ?).
    destruct (damping_decoupled _ _ _ _ ltac:(apply dset_nil)
      (rewritten_a _ _ ["alpha"; "beta"] (rewritten_c _ _ ["aileron"; "elevator"; "rudder"; "flap"] Hsy)) G3) as (? & ? & ?).
    auto 10.
  Qed.
End Airplane.
