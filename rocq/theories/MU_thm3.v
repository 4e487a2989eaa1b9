(** The host of a MachUp object: what its solve keeps, history independence, plain
    dictionaries. *)
From Coq Require Import ZArith String Bool Arith Lia List.
From Verif Require Import Base Num Geometry Grid LLModel PropModel Spec_LL LL_state MU Spec_MU MU_thm.
Import ListNotations.
Local Open Scope string_scope.

Section Host.
  Context {T : Type} {N : num_ops T}.
  Variable E : menv T.
  Variable X : machup T.
  Variable ps : option (dict (pval T)).
  Notation H := (host_of E X ps).

  (** *** what happens to the dictionary *)
  Lemma parts_keep a c s r a' s' : solve_parts E X ps a c s = (r, a', s') ->
    an a' = an a /\ (als a <> None -> als a' <> None) /\
    (mm_points X = None \/ mm_props X = [] -> a' = a).
  Proof.
    intros K. unfold solve_parts in K.
    assert (G : forall pr a1 s1, (match mm_grid X with
       | Some g => match ll_solve (me_lsolve E) g (mm_cg X) "linear" (Some a1) c (m_ll s1) with
            | (Ok r, l) => match read_ref l r with
                | Some w => (Ok (Some w, pr, add_fm (match pr with Some p => pt_fm p | None => zero_fm end) (r_total w)), a1, MkM l (m_ps s1))
                | None => (Err AttributeError, a1, MkM l (m_ps s1)) end
            | (Err e, l) => (Err e, a1, MkM l (m_ps s1)) end
       | None => (Ok (None, pr, add_fm (match pr with Some p => pt_fm p | None => zero_fm end) zero_fm), a1, s1) end)
       = (r, a', s') -> a' = a1).
    { intros pr a1 s1. destruct (mm_grid X) as [g|]; [|intros K0; now injection K0].
      destruct (ll_solve (me_lsolve E) g (mm_cg X) "linear" (Some a1) c (m_ll s1)) as [[q|e] l]; [|intros K0; now injection K0].
      destruct (read_ref l q); intros K0; now injection K0. }
    destruct (mm_props X) as [|g gs] eqn:Ep.
    - apply G in K. subst a'. auto.
    - destruct (props_solve (me_prop E) (mm_cg X) (mm_points X) (Some a) ps (g :: gs) (m_ps s)) as [[[pt rows]|e] ss] eqn:Es.
      + apply G in K. subst a'. split; [now destruct rows|]. split; [destruct rows; [discriminate|auto]|].
        intros [Kg|Kg]; [|discriminate]. rewrite Kg in Es. unfold props_solve in Es. apply sbind_ok in Es.
        destruct Es as (q & ss1 & _ & Es). injection Es as _ <- _. reflexivity.
      + injection K as <- <- <-. auto.
  Qed.
  Lemma host_keeps a c s r a' s' : h_solve H a c s = (r, a', s') ->
    an a' = an a /\ (als a <> None -> als a' <> None).
  Proof.
    cbn [host_of h_solve]. destruct (solve_parts E X ps a c s) as [[r0 a0] s0] eqn:K. intros K1. injection K1 as _ <- _.
    apply parts_keep in K. tauto.
  Qed.
  Lemma host_plain a c s r a' s' : mm_points X = None \/ mm_props X = [] ->
    h_solve H a c s = (r, a', s') -> a' = a.
  Proof.
    intros Hp. cbn [host_of h_solve]. destruct (solve_parts E X ps a c s) as [[r0 a0] s0] eqn:K. intros K1. injection K1 as _ <- _.
    apply parts_keep in K. tauto.
  Qed.

  (** *** histories *)
  Lemma performed_after l : forall h s', performed H (mu_after E X h) l s' ->
    s' = mu_after E X (h ++ map (fun k => MkMuCall (mm_cg X) ps (k_a k) (k_c k)) l) /\
    Forall (fun k => exists h', k_r k = fst (fst (h_solve H (k_a k) (k_c k) (mu_after E X h')))) l.
  Proof.
    induction l as [|k l IH]; intros h s'.
    - cbn. intros ->. rewrite app_nil_r. auto.
    - intros [[a K1] K2].
      assert (K3 : k_after k = mu_after E X (h ++ [MkMuCall (mm_cg X) ps (k_a k) (k_c k)])).
      { unfold mu_after. rewrite fold_left_app. cbn [fold_left mc_cg mc_ps mc_aero mc_ctl]. fold (mu_after E X h).
        replace (with_cg (mm_cg X) X) with X by (destruct X; reflexivity). now rewrite K1. }
      rewrite K3 in K2. destruct (IH _ _ K2) as [K4 K5]. rewrite <- app_assoc in K4. cbn [app map] in *. split; [exact K4|].
      constructor; [|exact K5]. exists h. now rewrite K1.
  Qed.

  (** without propellers the state is that of the lifting-line model *)
  Definition to_ll (k : mu_call T) : solve_call T := MkSolveCall (mc_cg k) "linear" (Some (mc_aero k)) (mc_ctl k).
  Lemma mu_after_ll g h : mm_grid X = Some g -> mm_props X = [] ->
    m_ll (mu_after E X h) = after (me_lsolve E) g (map to_ll h).
  Proof.
    intros Eg Ep. unfold mu_after, after, fresh.
    assert (G : forall s1 s2, m_ll s1 = s2 ->
      m_ll (fold_left (fun s k => snd (h_solve (host_of E (with_cg (mc_cg k) X) (mc_ps k)) (mc_aero k) (mc_ctl k) s)) h s1)
      = fold_left (fun s c => snd (call_solve (me_lsolve E) g c s)) (map to_ll h) s2).
    { induction h as [|k h' IH]; intros s1 s2 K; [exact K|]. cbn [fold_left map]. apply IH. subst s2.
      cbn [host_of h_solve]. unfold solve_parts. cbn [with_cg mm_grid mm_props mm_cg]. rewrite Eg, Ep.
      unfold call_solve, to_ll. cbn [k_cg k_stype k_aero k_ctl].
      destruct (ll_solve (me_lsolve E) g (mc_cg k) "linear" (Some (mc_aero k)) (mc_ctl k) (m_ll s1)) as [[q|e] l]; [|reflexivity].
      destruct (read_ref l q); reflexivity. }
    apply G. cbn. now rewrite Eg.
  Qed.

  Lemma wings_forces h a c : mm_props X = [] -> given a -> given_control c ->
    fst (fst (h_solve H a c (mu_after E X h))) = forces E X ps a c.
  Proof.
    intros Ep Ha Hc. unfold forces. cbn [host_of h_solve]. unfold solve_parts. rewrite Ep. destruct (mm_grid X) as [g|] eqn:Eg; [|reflexivity].
    rewrite (mu_after_ll g h Eg Ep). pose proof (mu_after_ll g [] Eg Ep) as K0. cbn [mu_after fold_left map] in K0.
    change (mu_after E X []) with (init_mstate X) in K0. rewrite K0.
    change (after (me_lsolve E) g []) with (fresh g).
    assert (Hg : given_aero (Some a)) by (exists a; auto).
    destruct (history_independent (me_lsolve E) g (map to_ll h) (mm_cg X) "linear" Hg Hc) as [K1 K2].
    cbv zeta in K1, K2.
    destruct (ll_solve (me_lsolve E) g (mm_cg X) "linear" (Some a) c (after (me_lsolve E) g (map to_ll h))) as [[q|e] l1];
      destruct (ll_solve (me_lsolve E) g (mm_cg X) "linear" (Some a) c (fresh g)) as [[q'|e'] l2]; cbn [fst snd] in *; try discriminate.
    - injection K1 as <-. specialize (K2 q eq_refl). unfold observed in K2. destruct q. cbn [read_ref].
      apply pair_equal_spec in K2. destruct K2 as [K2 _]. apply pair_equal_spec in K2. destruct K2 as [K2 _].
      apply pair_equal_spec in K2. destruct K2 as [-> _]. destruct (l_results l2); reflexivity.
    - injection K1 as <-. reflexivity.
  Qed.
  Lemma performed_forces l h s' : mm_props X = [] -> performed H (mu_after E X h) l s' ->
    Forall (fun k => given (k_a k) -> given_control (k_c k) -> k_r k = forces E X ps (k_a k) (k_c k)) l.
  Proof.
    intros Ep K. destruct (performed_after _ _ _ K) as [_ K2]. revert K2. apply Forall_impl.
    intros k (h' & K3) Ha Hc. rewrite K3. now apply wings_forces.
  Qed.
End Host.

(** *** dictionaries without local_state stay so, in every function, if solve does not add one *)
Section Plain.
  Context {T : Type} {N : num_ops T} {S : Type}.
  Variable H : host T S.
  Variable E : menv T.
  Notation W := (world T S).
  Hypothesis same : forall a c s r a' s', h_solve H a c s = (r, a', s') -> a' = a.

  Definition plain_world (w : W) : Prop := forall a, w_aero w = Some a -> als a = None.
  Definition plain {A} (m : st W A) : Prop :=
    forall w, plain_world w -> plain_world (snd (m w)) /\
      forall l, w_log (snd (m w)) = (w_log w ++ l)%list -> Forall (fun k => als (k_a k) = None) l.

  Lemma app_self {A} (l l' : list A) : l = (l ++ l')%list -> l' = [].
  Proof. intros K. rewrite <- (app_nil_r l) in K at 1. now apply app_inv_head in K. Qed.
  Lemma plain_quiet {A} (m : st W A) : (forall w, w_log (snd (m w)) = w_log w) ->
    (forall w, plain_world w -> plain_world (snd (m w))) -> plain m.
  Proof. intros K1 K2 w Hw. split; [auto|]. intros l K. rewrite K1 in K. apply app_self in K. subst l. constructor. Qed.
  Lemma plain_sret {A} (x : A) : plain (sret x).
  Proof. apply plain_quiet; auto. Qed.
  Lemma plain_sraise {A} e : plain (A := A) (sraise e).
  Proof. apply plain_quiet; auto. Qed.
  Lemma plain_slift {A} (x : res A) : plain (slift x).
  Proof. destruct x; apply plain_quiet; auto. Qed.
  Lemma plain_bind {A B} (m : st W A) (f : A -> st W B) :
    honest H m -> plain m -> (forall a, plain (f a)) -> (forall a, honest H (f a)) -> plain (sbind m f).
  Proof.
    intros Ho Hm Hf Hf' w Hw. unfold sbind. destruct (Ho w) as (l1 & L1 & _). destruct (Hm w Hw) as [K1 K2].
    destruct (m w) as [[a|e] w1]; cbn [snd] in *; [|split; [exact K1|exact K2]].
    destruct (Hf a w1 K1) as [K3 K4]. destruct (Hf' a w1) as (l2 & L2 & _). split; [exact K3|].
    intros l Hl. rewrite L2, L1, <- app_assoc in Hl. apply app_inv_head in Hl. subst l.
    apply Forall_app. split; [apply K2; exact L1|apply K4; exact L2].
  Qed.
  Lemma plain_set_aero k x : plain (set_aero k x).
  Proof.
    apply plain_quiet; [auto|]. intros w Hw a. cbn. destruct (w_aero w) as [a0|] eqn:K; [|discriminate].
    cbn. intros K1. injection K1 as <-. cbn. auto.
  Qed.
  Lemma plain_set_ctl k x : plain (set_ctl k x).
  Proof. apply plain_quiet; auto. Qed.
  Lemma plain_get_aero k x : plain (get_aero k x).
  Proof. apply plain_quiet; unfold get_aero; intros w; destruct (w_aero w); auto. Qed.
  Lemma plain_get_ctl k x : plain (get_ctl k x).
  Proof. apply plain_quiet; unfold get_ctl; intros w; destruct (w_ctl w); auto. Qed.
  Lemma plain_with_aero {A} a (m : st W A) : als a = None -> plain m -> plain (with_aero a m).
  Proof.
    intros Ha K w Hw. unfold with_aero. destruct (K (put_aero (Some a) w)) as [K1 K2].
    { intros b. cbn. intros K0. injection K0 as <-. exact Ha. }
    destruct (m (put_aero (Some a) w)) as [r w']; cbn [snd] in *. split; [intros b; exact (Hw b)|exact K2].
  Qed.
  Lemma plain_with_ctl {A} a (m : st W A) : plain m -> plain (with_ctl a m).
  Proof.
    intros K w Hw. unfold with_ctl. destruct (K (put_ctl (Some a) w) Hw) as [K1 K2].
    destruct (m (put_ctl (Some a) w)) as [r w']; cbn [snd] in *. split; [exact K1|exact K2].
  Qed.
  Lemma plain_if {A} (b : W -> bool) (m m' : st W A) : plain m -> plain m' -> plain (fun w => if b w then m w else m' w).
  Proof. intros K K' w. destruct (b w); auto. Qed.
  Lemma plain_raw_solve : plain (raw_solve H).
  Proof.
    intros w Hw. unfold raw_solve. destruct (w_aero w) as [a|] eqn:Ea.
    - destruct (h_solve H a (w_ctl w) (w_model w)) as [[r a'] s'] eqn:K. rewrite (same _ _ _ _ _ _ K). cbn. split.
      + intros b Kb. injection Kb as <-. auto.
      + intros l Hl. apply app_inv_head in Hl. subst l. constructor; [cbn; auto|constructor].
    - cbn. split; [exact Hw|]. intros l Hl. apply app_self in Hl. subst l. constructor.
  Qed.
  Lemma plain_do_solve : plain (do_solve H).
  Proof. apply plain_if; [|apply plain_with_aero; [reflexivity|]]; apply plain_raw_solve. Qed.
  Lemma plain_refs : plain (need_refs H).
  Proof. unfold need_refs. destruct (h_refs H); [apply plain_sret|apply plain_sraise]. Qed.
  Lemma plain_write f c : plain (write_if f c).
  Proof. unfold write_if. destruct (named f); [|apply plain_sret]. apply plain_quiet; auto. Qed.
  Lemma plain_sget {A} (f : W -> A) : plain (sget f).
  Proof. apply plain_quiet; auto. Qed.
End Plain.

(** tactic: [plain] of a composed computation, honesty of the pieces by [hon] *)
Ltac hon :=
    repeat lazymatch goal with
      | |- honest _ (do_solve _) => apply honest_do_solve
      | |- honest _ (sret _) => apply honest_sret
      | |- honest _ (sraise _) => apply honest_sraise
      | |- honest _ (slift _) => apply honest_slift
      | |- honest _ (set_aero _ _) => apply honest_set_aero
      | |- honest _ (set_ctl _ _) => apply honest_set_ctl
      | |- honest _ (smod (put_file _ _)) => apply honest_put_file
      | |- honest _ (get_aero _ _) => apply honest_get_aero
      | |- honest _ (get_ctl _ _) => apply honest_get_ctl
      | |- honest _ (need_refs _) => apply honest_refs
      | |- honest _ (write_if _ _) => apply honest_write
      | |- honest _ (slope_of _ _) => apply honest_slope
      | |- honest _ (trim_loop _ _ _ _ _ _ _ _ _ _) => apply honest_trim_loop
      | |- honest _ (lift_loop _ _ _ _ _ _ _ _ _ _) => apply honest_lift_loop
      | |- honest _ (stall_loop _ _ _ _) => apply honest_stall_loop
      | |- honest _ (sweep _ _) => apply honest_sweep
      | |- honest _ (sget _) => apply honest_sget
      | |- honest _ (sbind _ _) => apply honest_bind; [|intro]
      | |- honest _ (with_aero _ _) => apply honest_with_aero
      | |- honest _ (with_ctl _ _) => apply honest_with_ctl
      | |- honest _ (fun w => if aero_given w then _ else _) => apply honest_if
      | |- honest _ (fun w => if ctl_given w then _ else _) => apply honest_if
      | |- honest _ (match ?x with _ => _ end) => destruct x
      | |- honest _ (let _ := _ in _) => cbv zeta
      end.
Ltac pla Hs :=
    repeat lazymatch goal with
      | |- plain (do_solve _) => apply (plain_do_solve _ Hs)
      | |- plain (sret _) => apply plain_sret
      | |- plain (sraise _) => apply plain_sraise
      | |- plain (slift _) => apply plain_slift
      | |- plain (set_aero _ _) => apply plain_set_aero
      | |- plain (set_ctl _ _) => apply plain_set_ctl
      | |- plain (get_aero _ _) => apply plain_get_aero
      | |- plain (get_ctl _ _) => apply plain_get_ctl
      | |- plain (need_refs _) => apply plain_refs
      | |- plain (write_if _ _) => apply plain_write
      | |- plain (sget _) => apply plain_sget
      | |- plain (with_aero _ _) => apply plain_with_aero; [reflexivity|]
      | |- plain (with_ctl _ _) => apply plain_with_ctl
      | |- plain (fun w => if aero_given w then _ else _) => apply plain_if
      | |- plain (fun w => if ctl_given w then _ else _) => apply plain_if
      | |- plain (sbind ?m _) =>
          match type of Hs with context [h_solve ?H] =>
            apply (plain_bind H); [solve [hon]| |intro|intro; solve [hon]] end
      | |- plain (match ?x with _ => _ end) => destruct x
      | |- plain (let _ := _ in _) => cbv zeta
      end.

Section Plain2.
  Context {T : Type} {N : num_ops T} {S : Type}.
  Variable H : host T S.
  Variable E : menv T.
  Hypothesis same : forall a c s r a' s', h_solve H a c s = (r, a', s') -> a' = a.
  Lemma plain_stability : plain (stability_derivatives H).
  Proof. unfold stability_derivatives, stability_body, dynamic_pressure_area, around_aero. pla same. Qed.
  Lemma plain_damping : plain (damping_derivatives H).
  Proof. unfold damping_derivatives, damping_body, around_aero. pla same. Qed.
  Lemma plain_control : plain (control_derivatives H).
  Proof. unfold control_derivatives, control_body, dynamic_pressure_area, around_ctl. pla same. Qed.
  Lemma plain_slope f : plain (slope_of H f).
  Proof. unfold slope_of, around_aero, around_ctl. pla same. Qed.
End Plain2.
