(** Symbolic execution of the analysis functions of MachUp for an arbitrary host. *)
From Coq Require Import ZArith String Bool Arith Lia List.
From Verif Require Import Base Num Geometry Grid LLModel PropModel MU Spec_MU.
Import ListNotations.
Local Open Scope string_scope.

Lemma sbind_ok {S A B} (m : st S A) (f : A -> st S B) s b s' :
  sbind m f s = (Ok b, s') -> exists a s1, m s = (Ok a, s1) /\ f a s1 = (Ok b, s').
Proof. unfold sbind. destruct (m s) as [[a|e] s1]; [eauto|discriminate]. Qed.
Lemma sbind_err {S A B} (m : st S A) (f : A -> st S B) s e s' :
  sbind m f s = (Err e, s') ->
  m s = (Err e, s') \/ exists a s1, m s = (Ok a, s1) /\ f a s1 = (Err e, s').
Proof. unfold sbind. destruct (m s) as [[a|e'] s1]; intros H; [right; eauto|left; congruence]. Qed.

Lemma performed_app {T S} (H : host T S) l l' s s1 s2 :
  performed H s l s1 -> performed H s1 l' s2 -> performed H s (l ++ l') s2.
Proof.
  revert s. induction l as [|k l IH]; cbn.
  - intros s -> K. exact K.
  - intros s [K1 K2] K3. split; [exact K1|]. now apply IH.
Qed.

Section Generic.
  Context {T : Type} {N : num_ops T} {S : Type}.
  Variable H : host T S.
  Variable E : menv T.
  Notation W := (world T S).

  Lemma truthy_given (a : aero_state T) : aero_truthy a = true <-> given a.
  Proof.
    unfold aero_truthy, given. destruct (an a) as [|p l]; cbn; destruct (als a); split; intros K; auto; try discriminate.
    - right. discriminate.
    - destruct K; congruence.
    - left. discriminate.
    - left. discriminate.
  Qed.
  Lemma aero_given_some (w : W) a : w_aero w = Some a -> given a -> aero_given w = true.
  Proof. intros E1 K. unfold aero_given. rewrite E1. cbn. apply truthy_given in K. now rewrite K. Qed.
  Lemma aero_not_given (w : W) : aero_given w = false ->
    w_aero w = None \/ exists a, w_aero w = Some a /\ an a = [] /\ als a = None.
  Proof.
    unfold aero_given. destruct (w_aero w) as [a|]; cbn; auto. destruct (aero_truthy a) eqn:K; cbn; [discriminate|].
    intros _. right. exists a. unfold aero_truthy in K. destruct (an a) eqn:K1, (als a) eqn:K2; cbn in K; try discriminate. auto.
  Qed.

  (** *** every function only talks to the model through solves *)
  Definition honest {A} (m : st W A) : Prop :=
    forall w, exists l, w_log (snd (m w)) = (w_log w ++ l)%list /\ performed H (w_model w) l (w_model (snd (m w))).

  Lemma honest_ret {A} (x : res A) : honest (fun w => (x, w)).
  Proof. intros w. exists []. cbn. now rewrite app_nil_r. Qed.
  Lemma honest_sret {A} (x : A) : honest (sret x).
  Proof. apply honest_ret. Qed.
  Lemma honest_sraise {A} e : honest (A := A) (sraise e).
  Proof. apply (honest_ret (Err e)). Qed.
  Lemma honest_slift {A} (x : res A) : honest (slift x).
  Proof. destruct x; cbn; [apply (honest_ret (Ok a))|apply (honest_ret (Err e))]. Qed.
  Lemma honest_bind {A B} (m : st W A) (f : A -> st W B) :
    honest m -> (forall a, honest (f a)) -> honest (sbind m f).
  Proof.
    intros Hm Hf w. unfold sbind. destruct (Hm w) as (l & K1 & K2). destruct (m w) as [[a|e] w1] eqn:E1; cbn [snd] in *.
    - destruct (Hf a w1) as (l' & K3 & K4). exists (l ++ l')%list. rewrite K3, K1, app_assoc. split; [reflexivity|].
      eapply performed_app; eauto.
    - exists l. auto.
  Qed.
  Lemma honest_smod (f : W -> W) : (forall w, w_log (f w) = w_log w /\ w_model (f w) = w_model w) -> honest (smod f).
  Proof. intros K w. exists []. cbn. destruct (K w) as [-> ->]. now rewrite app_nil_r. Qed.
  Lemma honest_set_aero k x : honest (set_aero k x).
  Proof. apply honest_smod. intros w. split; reflexivity. Qed.
  Lemma honest_set_ctl k x : honest (set_ctl k x).
  Proof. apply honest_smod. intros w. split; reflexivity. Qed.
  Lemma honest_put_file f l : honest (smod (put_file f l)).
  Proof. apply honest_smod. intros w. split; reflexivity. Qed.
  Lemma honest_get_aero k x : honest (get_aero k x).
  Proof. intros w. exists []. unfold get_aero. destruct (w_aero w); cbn; now rewrite app_nil_r. Qed.
  Lemma honest_get_ctl k x : honest (get_ctl k x).
  Proof. intros w. exists []. unfold get_ctl. destruct (w_ctl w); cbn; now rewrite app_nil_r. Qed.
  Lemma honest_with_aero {A} a (m : st W A) : honest m -> honest (with_aero a m).
  Proof.
    intros K w. unfold with_aero. destruct (K (put_aero (Some a) w)) as (l & K1 & K2).
    destruct (m (put_aero (Some a) w)) as [r w']; cbn in *. exists l. auto.
  Qed.
  Lemma honest_with_ctl {A} a (m : st W A) : honest m -> honest (with_ctl a m).
  Proof.
    intros K w. unfold with_ctl. destruct (K (put_ctl (Some a) w)) as (l & K1 & K2).
    destruct (m (put_ctl (Some a) w)) as [r w']; cbn in *. exists l. auto.
  Qed.
  Lemma honest_raw_solve : honest (raw_solve H).
  Proof.
    intros w. unfold raw_solve. destruct (w_aero w) as [a|].
    - destruct (h_solve H a (w_ctl w) (w_model w)) as [[r a'] s'] eqn:K. cbn. eexists [_]. cbn. split; [reflexivity|].
      split; [eauto|reflexivity].
    - exists []. cbn. now rewrite app_nil_r.
  Qed.
  Lemma honest_if {A} (b : W -> bool) (m m' : st W A) :
    honest m -> honest m' -> honest (fun w => if b w then m w else m' w).
  Proof. intros K K' w. destruct (b w); auto. Qed.
  Lemma honest_do_solve : honest (do_solve H).
  Proof. apply honest_if; [|apply honest_with_aero]; apply honest_raw_solve. Qed.
  Lemma honest_sget {A} (f : W -> A) : honest (sget f).
  Proof. intros w. exists []. cbn. now rewrite app_nil_r. Qed.

  Ltac hon :=
    repeat lazymatch goal with
      | |- honest (do_solve _) => apply honest_do_solve
      | |- honest (sret _) => apply honest_sret
      | |- honest (sraise _) => apply honest_sraise
      | |- honest (slift _) => apply honest_slift
      | |- honest (set_aero _ _) => apply honest_set_aero
      | |- honest (set_ctl _ _) => apply honest_set_ctl
      | |- honest (smod (put_file _ _)) => apply honest_put_file
      | |- honest (get_aero _ _) => apply honest_get_aero
      | |- honest (get_ctl _ _) => apply honest_get_ctl
      | |- honest (sget _) => apply honest_sget
      | |- honest (sbind _ _) => apply honest_bind; [|intro]
      | |- honest (with_aero _ _) => apply honest_with_aero
      | |- honest (with_ctl _ _) => apply honest_with_ctl
      | |- honest (fun w => if aero_given w then _ else _) => apply honest_if
      | |- honest (fun w => if ctl_given w then _ else _) => apply honest_if
      | |- honest (match ?x with _ => _ end) => destruct x
      | |- honest (let _ := _ in _) => cbv zeta
      end.

  Lemma honest_refs : honest (need_refs H).
  Proof. unfold need_refs. hon. Qed.
  Lemma honest_write f c : honest (write_if f c).
  Proof. unfold write_if. hon. Qed.
  Lemma honest_stability : honest (stability_derivatives H).
  Proof. unfold stability_derivatives, stability_body, dynamic_pressure_area, around_aero, need_refs. hon. Qed.
  Lemma honest_damping : honest (damping_derivatives H).
  Proof. unfold damping_derivatives, damping_body, around_aero, need_refs. hon. Qed.
  Lemma honest_control : honest (control_derivatives H).
  Proof. unfold control_derivatives, control_body, dynamic_pressure_area, around_ctl, need_refs. hon. Qed.
  Lemma honest_derivatives f : honest (derivatives H f).
  Proof.
    unfold derivatives. destruct (h_refs H); [|hon; apply honest_write].
    apply honest_bind; [|intros; hon; apply honest_write].
    apply honest_bind; [apply honest_stability|intros stab]. apply honest_bind; [apply honest_slift|intros ma].
    apply honest_bind; [apply honest_slift|intros la]. apply honest_bind; [apply honest_control|intros cont].
    apply honest_bind; [apply honest_damping|intros damp]. apply honest_sret.
  Qed.
  Lemma honest_lift_loop fuel t e f x0 y0 x1 y1 i : honest (lift_loop H fuel t e f x0 y0 x1 y1 i).
  Proof. revert x0 y0 x1 y1 i. induction fuel as [|n IH]; intros; cbn [lift_loop]; hon. apply IH. Qed.
  Lemma honest_lift_body t e f a : honest (lift_body H t e f a).
  Proof. unfold lift_body. hon. apply honest_lift_loop. Qed.
  Lemma honest_target_lift t f e : honest (target_lift H t f e).
  Proof.
    unfold target_lift. apply honest_bind.
    - intros w. destruct (opt_truthy aero_truthy (w_aero w)) as [a|].
      + apply honest_lift_body.
      + apply honest_with_aero, honest_lift_body.
    - intros a. hon; apply honest_write.
  Qed.
  Lemma honest_slope f : honest (slope_of H f).
  Proof. unfold slope_of, around_aero, around_ctl. hon. Qed.
  Lemma honest_trim_loop fuel L m e f a de i : honest (trim_loop H E fuel L m e f a de i).
  Proof.
    revert a de i. induction fuel as [|n IH]; intros; cbn [trim_loop]; hon; try apply honest_write; try apply honest_slope.
    apply IH.
  Qed.
  Lemma honest_pitch_trim L m f e : honest (pitch_trim H E L m f e).
  Proof.
    intros w. unfold pitch_trim. destruct (aero_given w), (ctl_given w).
    - apply honest_trim_loop.
    - apply honest_with_ctl, honest_trim_loop.
    - apply honest_with_aero, honest_trim_loop.
    - apply honest_with_aero, honest_with_ctl, honest_trim_loop.
  Qed.
  Lemma honest_stall_loop fuel a : honest (stall_loop H E fuel a).
  Proof. revert a. induction fuel as [|n IH]; intros; cbn [stall_loop]; hon. apply IH. Qed.
  Lemma honest_onset : honest (onset_body H E).
  Proof. apply honest_stall_loop. Qed.
  Lemma honest_stall_onset f : honest (stall_onset H E f).
  Proof. unfold stall_onset. hon; try apply honest_write; apply honest_onset. Qed.
  Lemma honest_airspeed_loop fuel wt e x0 y0 x1 y1 i : honest (airspeed_loop H E fuel wt e x0 y0 x1 y1 i).
  Proof. revert x0 y0 x1 y1 i. induction fuel as [|n IH]; intros; cbn [airspeed_loop]; hon; [apply honest_onset|apply IH]. Qed.
  Lemma honest_airspeed_body wt e a : honest (airspeed_body H E wt e a).
  Proof. unfold airspeed_body. hon; try apply honest_onset. apply honest_airspeed_loop. Qed.
  Lemma honest_stall_airspeed wt f e : honest (stall_airspeed H E wt f e).
  Proof.
    unfold stall_airspeed. apply honest_bind; [|intros; hon; apply honest_write].
    destruct (h_refs H); [|hon]. apply honest_bind; [|intros; hon]. intros w.
    destruct (opt_truthy aero_truthy (w_aero w)) as [a|]; [|apply (honest_ret (Err AttributeError))].
    apply honest_airspeed_body.
  Qed.
  Lemma honest_sweep l : honest (sweep H l).
  Proof. induction l; cbn [sweep]; hon. exact IHl. Qed.
  Lemma honest_find_aero_center f : honest (find_aero_center H E f).
  Proof.
    unfold find_aero_center, center_body, dynamic_pressure_area. hon; try apply honest_write; try apply honest_refs; apply honest_sweep.
  Qed.

  (** *** what a solve does to the dictionaries *)
  Hypothesis keeps : forall a c s r a' s', h_solve H a c s = (r, a', s') ->
    an a' = an a /\ (als a <> None -> als a' <> None).

  Lemma do_solve_run w r w' a : do_solve H w = (r, w') -> w_aero w = Some a -> given a ->
    exists a', an a' = an a /\ given a' /\ h_solve H a (w_ctl w) (w_model w) = (r, a', w_model w') /\
      w' = MkW (Some a') (w_ctl w) (w_model w') (w_files w) (w_log w ++ [MkCall a (w_ctl w) r (w_model w')]).
  Proof.
    intros K Ea Hg. unfold do_solve in K. rewrite (aero_given_some w a Ea Hg) in K.
    unfold raw_solve in K. rewrite Ea in K. destruct (h_solve H a (w_ctl w) (w_model w)) as [[r0 a'] s'] eqn:K1.
    injection K as <- <-. exists a'. cbn. destruct (keeps _ _ _ _ _ _ K1) as [K2 K3]. split; [exact K2|].
    split; [|split; reflexivity]. unfold given. rewrite K2. destruct Hg; tauto.
  Qed.
  Lemma do_solve_default w r w' : do_solve H w = (r, w') -> aero_given w = false ->
    h_solve H default_aero (w_ctl w) (w_model w) = (r, snd (fst (h_solve H default_aero (w_ctl w) (w_model w))), w_model w') /\
    w' = MkW (w_aero w) (w_ctl w) (w_model w') (w_files w) (w_log w ++ [MkCall default_aero (w_ctl w) r (w_model w')]).
  Proof.
    intros K Hg. unfold do_solve in K. rewrite Hg in K. unfold with_aero, raw_solve in K. cbn [put_aero w_aero w_ctl w_model w_files w_log] in K.
    destruct (h_solve H default_aero (w_ctl w) (w_model w)) as [[r0 a'] s'] eqn:K1.
    unfold put_aero in K. cbn in K. injection K as <- <-. cbn. auto.
  Qed.
  Lemma set_given (a : aero_state T) k x y : given (MkAero (dset (an a) k x) y).
  Proof. left. cbn. intros K. pose proof (dset_truthy (an a) k x) as L. now rewrite K in L. Qed.

  Lemma around_aero_ok key x0 d w f b w' a :
    around_aero H key x0 d w = (Ok (f, b), w') -> w_aero w = Some a ->
    exists c1 c2 a', w' = MkW (Some a') (w_ctl w) (w_model w') (w_files w) (w_log w ++ [c1; c2]) /\
      an (k_a c1) = dset (an a) key (nsub x0 d) /\ an (k_a c2) = dset (an a) key (nadd x0 d) /\
      k_c c1 = w_ctl w /\ k_c c2 = w_ctl w /\ k_r c1 = Ok b /\ k_r c2 = Ok f /\
      an a' = dset (an a) key (nadd x0 d).
  Proof.
    intros K Ea. unfold around_aero in K.
    apply sbind_ok in K. destruct K as (u & w1 & K1 & K).
    apply sbind_ok in K. destruct K as (r1 & w2 & K2 & K).
    apply sbind_ok in K. destruct K as (u' & w3 & K3 & K).
    apply sbind_ok in K. destruct K as (r2 & w4 & K4 & K).
    injection K as <- <- <-. unfold set_aero, smod in K1, K3. injection K1 as <- <-. injection K3 as <- <-.
    rewrite Ea in K2. cbn [option_map put_aero] in K2.
    destruct (do_solve_run _ _ _ _ K2 eq_refl (set_given _ _ _ _)) as (a1 & A1 & _ & A2 & A3).
    rewrite A3 in K4. cbn [w_aero option_map put_aero] in K4.
    destruct (do_solve_run _ _ _ _ K4 eq_refl (set_given _ _ _ _)) as (a2 & B1 & _ & B2 & B3).
    cbn [w_ctl w_files w_log an] in *.
    eexists (MkCall _ _ _ _), (MkCall _ _ _ _), a2.
    split; [rewrite B3 at 1; cbn [w_ctl w_files w_log w_model put_aero]; rewrite <- app_assoc; cbn [app]; reflexivity|].
    cbn. rewrite B1, A1, !dset_twice. repeat split.
  Qed.
  Lemma around_ctl_ok key x0 d w f b w' c :
    around_ctl H key x0 d w = (Ok (f, b), w') -> w_ctl w = Some c ->
    exists c1 c2 o, w' = MkW o (Some (dset c key (nadd x0 d))) (w_model w') (w_files w) (w_log w ++ [c1; c2]) /\
      k_c c1 = Some (dset c key (nsub x0 d)) /\ k_c c2 = Some (dset c key (nadd x0 d)) /\
      k_r c1 = Ok b /\ k_r c2 = Ok f /\
      (forall a, w_aero w = Some a -> given a ->
         an (k_a c1) = an a /\ an (k_a c2) = an a /\ exists a', o = Some a' /\ given a' /\ an a' = an a) /\
      (aero_given w = false -> k_a c1 = default_aero /\ k_a c2 = default_aero /\ o = w_aero w).
  Proof.
    intros K Ec. unfold around_ctl in K.
    apply sbind_ok in K. destruct K as (u & w1 & K1 & K).
    apply sbind_ok in K. destruct K as (r1 & w2 & K2 & K).
    apply sbind_ok in K. destruct K as (u' & w3 & K3 & K).
    apply sbind_ok in K. destruct K as (r2 & w4 & K4 & K).
    injection K as <- <- <-. unfold set_ctl, smod in K1, K3. injection K1 as <- <-. injection K3 as <- <-.
    rewrite Ec in K2. cbn [option_map] in K2.
    destruct (aero_given w) eqn:Ht.
    - assert (Hg : exists a, w_aero w = Some a /\ given a).
      { unfold aero_given in Ht. destruct (w_aero w) as [a|]; cbn in Ht; [|discriminate]. exists a. split; [reflexivity|].
        apply truthy_given. now destruct (aero_truthy a). }
      destruct Hg as (a & Ea & Hg).
      destruct (do_solve_run _ _ _ a K2 Ea Hg) as (a1 & A1 & A1' & A2 & A3).
      rewrite A3 in K4. cbn [w_ctl option_map put_ctl] in K4.
      destruct (do_solve_run _ _ _ a1 K4 eq_refl A1') as (a2 & B1 & B1' & B2 & B3).
      cbn [w_ctl w_files w_log an put_ctl w_model w_aero option_map] in *.
      eexists (MkCall _ _ _ _), (MkCall _ _ _ _), (Some a2).
      split; [rewrite B3 at 1; rewrite <- app_assoc; cbn [app]; rewrite dset_twice; reflexivity|]. cbn. rewrite ?dset_twice.
      repeat split; try discriminate.
      + congruence.
      + assert (a0 = a) by congruence. congruence.
      + exists a2. repeat split; congruence.
    - destruct (do_solve_default _ _ _ K2 Ht) as (A2 & A3).
      rewrite A3 in K4. cbn [w_ctl option_map put_ctl] in K4.
      destruct (do_solve_default _ _ _ K4 Ht) as (B2 & B3).
      cbn [w_ctl w_files w_log an put_ctl w_model w_aero option_map] in *.
      eexists (MkCall _ _ _ _), (MkCall _ _ _ _), (w_aero w).
      split; [rewrite B3 at 1; rewrite <- app_assoc; cbn [app]; rewrite dset_twice; reflexivity|]. cbn. rewrite ?dset_twice.
      do 4 (split; [reflexivity|]). split; [|auto].
      intros a Ea Hg. rewrite (aero_given_some w a Ea Hg) in Ht. discriminate.
  Qed.
End Generic.
