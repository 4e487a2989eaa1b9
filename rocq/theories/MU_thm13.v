(** MachUp.solve (C27, C33, C34, C35) and a derivative call that fails (C40). *)
From Coq Require Import Reals ZArith String Bool Arith Lia Lra List.
From Verif Require Import Base Num RVec Geometry Grid LLModel PropModel Spec_Grid Spec_LL LL_state LL_R LL_scale MU Spec_MU MU_thm MU_thm2 MU_thm3 MU_thm4 MU_thm5.
Import ListNotations.
Local Open Scope string_scope.

Section Solve.
  Context {T : Type} {N : num_ops T}.
  Variable E : menv T.
  Variable X : machup T.
  Variable ps : option (dict (pval T)).
  Notation W := (world T (mstate T)).
  Notation H := (host_of E X ps).

  Lemma opt_truthy_given (a : aero_state T) : given a -> opt_truthy aero_truthy (Some a) = Some a.
  Proof. intros Ha. cbn. apply truthy_given in Ha. now rewrite Ha. Qed.
  Lemma opt_truthy_omitted (w : W) : (forall a, w_aero w = Some a -> ~ given a) -> opt_truthy aero_truthy (w_aero w) = None.
  Proof.
    intros Ha. destruct (w_aero w) as [a|]; [|reflexivity]. cbn. destruct (aero_truthy a) eqn:K; [|reflexivity].
    apply truthy_given in K. now elim (Ha a eq_refl).
  Qed.
  Lemma named_cases (f : option string) : named f = None \/ exists n, f = Some n /\ n <> "" /\ named f = Some n.
  Proof. destruct f as [[|c s]|]; cbn; auto. right. eexists. split; [reflexivity|split; [discriminate|reflexivity]]. Qed.

  (** what a call with a flow dictionary does *)
  Lemma solve_given f (w : W) a : w_aero w = Some a -> given a ->
    exists r a' s', solve_parts E X ps a (w_ctl w) (w_model w) = (r, a', s') /\
      w_aero (snd (mu_solve E X ps f w)) = Some a' /\ w_ctl (snd (mu_solve E X ps f w)) = w_ctl w /\
      w_model (snd (mu_solve E X ps f w)) = s' /\
      fst (mu_solve E X ps f w) = (rlet q := r in Ok (snd q)) /\
      w_files (snd (mu_solve E X ps f w)) =
        match named f, r with
        | Some n, Ok (wing, prop, tot) => dset (w_files w) n [F_solve wing prop tot]
        | _, _ => w_files w
        end.
  Proof.
    intros Ea Ha. unfold mu_solve. rewrite Ea, (opt_truthy_given a Ha).
    destruct (solve_parts E X ps a (w_ctl w) (w_model w)) as [[r a'] s']. exists r, a', s'. split; [reflexivity|].
    destruct r as [[[wing prop] tot]|e].
    - unfold write_if, sbind, smod, sret. destruct (named f); cbn; repeat split.
    - cbn. destruct (named f); repeat split.
  Qed.

  (** ... and one without *)
  Lemma solve_omitted f (w : W) : (forall a, w_aero w = Some a -> ~ given a) ->
    exists r a' s', solve_parts E X ps default_aero (w_ctl w) (w_model w) = (r, a', s') /\
      w_aero (snd (mu_solve E X ps f w)) = w_aero w /\ w_ctl (snd (mu_solve E X ps f w)) = w_ctl w /\
      w_model (snd (mu_solve E X ps f w)) = s' /\ w_files (snd (mu_solve E X ps f w)) = w_files w /\
      fst (mu_solve E X ps f w) =
        match named f with
        | None => rlet q := r in Ok (snd q)
        | Some _ => rlet q := r in Err UnboundLocalError
        end.
  Proof.
    intros Ha. unfold mu_solve. rewrite (opt_truthy_omitted w Ha).
    unfold sbind, do_solve, aero_given. rewrite (opt_truthy_omitted w Ha). unfold with_aero, raw_solve. cbn [put_aero w_aero].
    cbn [host_of h_solve w_ctl w_model put_aero w_aero].
    destruct (solve_parts E X ps default_aero (w_ctl w) (w_model w)) as [[r a'] s']. exists r, a', s'. split; [reflexivity|].
    destruct r as [[[wing prop] tot]|e]; cbn; destruct (named f); cbn; repeat split.
  Qed.

  Lemma solve_default f (w : W) : (forall a, w_aero w = Some a -> ~ given a) -> named f = None ->
    fst (mu_solve E X ps f w) = fst (mu_solve E X ps f (put_aero (Some default_aero) w)) /\
    w_model (snd (mu_solve E X ps f w)) = w_model (snd (mu_solve E X ps f (put_aero (Some default_aero) w))).
  Proof.
    intros Ha Hf. destruct (solve_omitted f w Ha) as (r & a' & s' & K & _ & _ & K1 & _ & K2). rewrite Hf in K2.
    destruct (solve_given f (put_aero (Some default_aero) w) default_aero eq_refl) as (r0 & a0 & s0 & Q & _ & _ & Q1 & Q2 & _).
    { left. discriminate. }
    cbn [put_aero w_ctl w_model] in Q. rewrite K in Q. injection Q as <- <- <-. now rewrite K1, K2, Q1, Q2.
  Qed.

  (** the two parts *)
  Definition wing_part (a : aero_state T) (c : option (dict T)) (s : ll_state T) (f : fm T) : Prop :=
    match mm_grid X with
    | None => f = zero_fm
    | Some g => exists r s' res, ll_solve (me_lsolve E) g (mm_cg X) "linear" (Some a) c s = (Ok r, s') /\
        read_ref s' r = Some res /\ f = r_total res
    end.
  Lemma parts_add a c s w pr tot a' s' : solve_parts E X ps a c s = (Ok (w, pr, tot), a', s') ->
    exists p q, tot = add_fm p q /\ wing_part a' c (m_ll s) q /\
      match mm_props X with
      | [] => p = zero_fm /\ a' = a
      | gs => exists pt rows ss, props_solve (me_prop E) (mm_cg X) (mm_points X) (Some a) ps gs (m_ps s) = (Ok (pt, rows), ss) /\
          p = pt_fm pt /\ a' = match rows with Some r => set_local a r | None => a end
      end.
  Proof.
    unfold solve_parts, wing_part. intros K.
    destruct (mm_props X) as [|g0 gs] eqn:Ep.
    - destruct (mm_grid X) as [g|].
      + destruct (ll_solve _ _ _ _ _ _ _) as [[r|e] l] eqn:Es; [|discriminate].
        destruct (read_ref l r) as [res|] eqn:Er; [|discriminate]. injection K as <- <- <- <- <-.
        exists zero_fm, (r_total res). split; [reflexivity|]. split; [eauto 7|auto].
      + injection K as <- <- <- <- <-. exists zero_fm, zero_fm. auto.
    - destruct (props_solve _ _ _ _ _ _ _) as [[[pt rows]|e] ss] eqn:Epp; [|discriminate].
      destruct (mm_grid X) as [g|].
      + cbn [m_ll] in K. destruct (ll_solve _ _ _ _ _ _ _) as [[r|e] l] eqn:Es; [|discriminate].
        destruct (read_ref l r) as [res|] eqn:Er; [|discriminate]. injection K as <- <- <- <- <-.
        exists (pt_fm pt), (r_total res). split; [reflexivity|]. split; [eauto 7|eauto 9].
      + injection K as <- <- <- <- <-. exists (pt_fm pt), zero_fm. split; [reflexivity|]. split; [auto|eauto 9].
  Qed.

  (** *** the dictionary objects *)
  Lemma store_length hp : forall p k (x : T), List.length (store hp p k x) = List.length hp.
  Proof. induction hp as [|d hp IH]; intros [|p] k x; cbn; auto. Qed.
  Lemma store_last hp d k (x : T) : store (hp ++ [d]) (List.length hp) k x = (hp ++ [dset d k x])%list.
  Proof. induction hp as [|d0 hp IH]; cbn; [reflexivity|]. now rewrite IH. Qed.
  Lemma store_all es : forall hp (d : dict T),
    fold_left (fun h e => store h (List.length hp) (fst e) (snd e)) es (hp ++ [d])%list =
    (hp ++ [fold_left (fun d e => dset d (fst e) (snd e)) es d])%list.
  Proof. induction es as [|e es IH]; intros hp d; [reflexivity|]. cbn [fold_left]. rewrite store_last. apply IH. Qed.
  Lemma solve_obj_run f (w : W) hp :
    solve_obj E X ps f (w, hp) =
      match mu_solve E X ps f w with
      | (Ok t, w') => (Ok (List.length hp), (w', (hp ++ [total_entries t])%list))
      | (Err e, w') => (Err e, (w', (hp ++ [[]])%list))
      end.
  Proof.
    unfold solve_obj. destruct (mu_solve E X ps f w) as [[t|e] w']; [|reflexivity]. rewrite store_all. reflexivity.
  Qed.
End Solve.

Section Objects.
  Context {T : Type} {N : num_ops T}.
  Variable E : menv T.
  Variable X : machup T.
  Lemma obj_step_grows k q : exists d, snd (snd (obj_step E X k q)) = (snd q ++ [d])%list.
  Proof.
    unfold obj_step. rewrite solve_obj_run. destruct (mu_solve _ _ _ _ _) as [[t|e] w']; cbn; eauto.
  Qed.
  Lemma obj_after_keeps ks : forall q p d, nth_error (snd q) p = Some d -> nth_error (snd (obj_after E X ks q)) p = Some d.
  Proof.
    induction ks as [|k ks IH]; intros q p d K; [exact K|]. cbn. unfold obj_after in IH. apply IH.
    destruct (obj_step_grows k q) as [d' ->]. rewrite nth_error_app1; [exact K|]. apply nth_error_Some. congruence.
  Qed.
  Lemma obj_step_new k q p q' : obj_step E X k q = (Ok p, q') ->
    p = List.length (snd q) /\
    exists f w', mu_solve E (with_cg (oc_cg k) X) (oc_ps k) (oc_file k) (MkW (oc_aero k) (oc_ctl k) (fst q) [] []) = (Ok f, w') /\
      nth_error (snd q') p = Some (total_entries f).
  Proof.
    unfold obj_step. rewrite solve_obj_run. destruct (mu_solve _ _ _ _ _) as [[t|e] w']; [|discriminate]. cbn.
    intros K. injection K as <- <-. split; [reflexivity|]. exists t, w'. split; [reflexivity|]. cbn.
    rewrite nth_error_app2 by lia. now rewrite Nat.sub_diag.
  Qed.
End Objects.

(** *** Ignored entries *)
Section Ignored.
  Local Open Scope R_scope.
  Lemma dir_V V V' a b : 0 < V -> 0 < V' -> unit_of (freestream V a b) = unit_of (freestream V' a b).
  Proof.
    intros H1 H2. replace V with ((V / V') * V') by (field; lra).
    rewrite freestream_k. apply unit_of_k. unfold Rdiv. apply Rmult_lt_0_compat; [lra|now apply Rinv_0_lt_compat].
  Qed.
  Lemma has_rates_other (d : dict R) k x : ~ In k ["roll_rate"; "pitch_rate"; "yaw_rate"] ->
    has_rates (dset d k x) = has_rates d /\ rates_of (dset d k x) = rates_of d.
  Proof.
    intros Hk. unfold has_rates, rates_of, dmem. cbn [In] in Hk.
    rewrite !dget_dset_other by (intros K; apply Hk; rewrite K; auto).
    rewrite !dgetd_dset_other by (intros K; apply Hk; rewrite K; auto). auto.
  Qed.
  Lemma process_local g cg (a : aero_state R) rows V V' rho' s :
    als a = Some rows -> dget (an a) "V_mag" = Some V -> 0 < V -> 0 < V' ->
    process_aero g cg (Some (MkAero (dset (dset (an a) "V_mag" V') "rho" rho') (Some rows))) s = process_aero g cg (Some a) s.
  Proof.
    intros El EV HV HV'. destruct a as [d l]. cbn [an als] in *. subst l.
    unfold process_aero, opt_truthy, aero_truthy. cbn [an als]. rewrite !orb_true_r. cbn [an als]. unfold slift, sbind.
    destruct (broadcast (g_num g) rows) as [rs|e]; [|reflexivity].
    rewrite dget_dset_other by discriminate. rewrite dget_dset_same, EV.
    rewrite !dgetd_dset_other by discriminate. rewrite (dir_V V' V) by assumption.
    destruct (has_rates_other (dset d "V_mag" V') "rho" rho') as [A1 A2]; [cbn; intuition discriminate|].
    destruct (has_rates_other d "V_mag" V') as [B1 B2]; [cbn; intuition discriminate|].
    rewrite A1, B1. unfold smod, superimpose_rotation. rewrite A2, B2. reflexivity.
  Qed.
  Lemma solve_ignores E X ps (a : aero_state R) rows V V' rho' c s :
    mm_props X = [] -> als a = Some rows -> dget (an a) "V_mag" = Some V -> 0 < V -> 0 < V' ->
    fst (fst (h_solve (host_of E X ps) (MkAero (dset (dset (an a) "V_mag" V') "rho" rho') (Some rows)) c s)) =
    fst (fst (h_solve (host_of E X ps) a c s)).
  Proof.
    intros Ep El EV HV HV'. cbn [host_of h_solve]. unfold solve_parts. rewrite Ep. destruct (mm_grid X) as [g|]; [|reflexivity].
    assert (K : ll_solve (me_lsolve E) g (mm_cg X) "linear" (Some (MkAero (dset (dset (an a) "V_mag" V') "rho" rho') (Some rows))) c (m_ll s)
      = ll_solve (me_lsolve E) g (mm_cg X) "linear" (Some a) c (m_ll s)).
    { unfold ll_solve, sbind. now rewrite (process_local g (mm_cg X) a rows V V' rho' (m_ll s) El EV HV HV'). }
    rewrite K. clear K. destruct (ll_solve (me_lsolve E) g (mm_cg X) "linear" (Some a) c (m_ll s)) as [[r|e] l]; [|reflexivity].
    destruct (read_ref l r); reflexivity.
  Qed.
End Ignored.

(** *** C40: a flow dictionary without density *)
Section NoRho.
  Local Open Scope R_scope.
  Lemma no_rho_solve E X ps g (a : aero_state R) c s :
    mm_props X = [] -> mm_grid X = Some g -> given a -> als a = None -> dget (an a) "rho" = None ->
    h_solve (host_of E X ps) a c s = (Err RuntimeError, a, s).
  Proof.
    intros Ep Eg Ha El Er. cbn [host_of h_solve]. unfold solve_parts. rewrite Ep, Eg.
    assert (K : ll_solve (me_lsolve E) g (mm_cg X) "linear" (Some a) c (m_ll s) = (Err RuntimeError, m_ll s)).
    { unfold ll_solve, sbind, process_aero. apply truthy_given in Ha. unfold opt_truthy. rewrite Ha, El, Er.
      unfold sbind. destruct (dget (an a) "V_mag"); reflexivity. }
    rewrite K. destruct s. reflexivity.
  Qed.
  Lemma no_rho_stability E X ps g r (w : world R (mstate R)) a :
    mm_props X = [] -> mm_grid X = Some g -> mm_refs X = Some r ->
    w_aero w = Some a -> given a -> als a = None -> dget (an a) "rho" = None ->
    exists w', stability_derivatives (host_of E X ps) w = (Err RuntimeError, w') /\
      w_aero w' = Some (numbers (dset (an a) "alpha" (entry (an a) "alpha" - 1 / 2))).
  Proof.
    intros Ep Eg Er0 Ea Ha El Er. unfold stability_derivatives. rewrite (aero_given_some w a Ea Ha).
    unfold stability_body, dynamic_pressure_area, need_refs. cbn [host_of h_refs]. rewrite Er0.
    unfold sbind at 1. unfold sbind at 1. rewrite (get_aero_some _ _ _ _ Ea). unfold sbind at 1. rewrite (get_aero_some _ _ _ _ Ea).
    unfold sbind at 1 2 3 4, sret. rewrite (get_aero_some _ _ _ _ Ea). unfold around_aero, set_aero.
    unfold sbind at 1 2 3, smod.
    set (a1 := MkAero (dset (an a) "alpha" (nsub (dgetd (an a) "alpha" n0) (ndec 5 1))) (als a)).
    assert (G : given a1) by (left; cbn; apply dset_nil).
    unfold do_solve. rewrite (aero_given_some _ a1); [|cbn [put_aero w_aero]; rewrite Ea; reflexivity|exact G].
    unfold raw_solve. cbn [put_aero w_aero w_ctl w_model]. rewrite Ea. cbn [option_map]. fold a1.
    rewrite (no_rho_solve E X ps g a1 (w_ctl w) (w_model w) Ep Eg G El).
    2: { cbn [an a1]. now rewrite dget_dset_other by discriminate. }
    eexists. split; [reflexivity|]. cbn [w_aero]. unfold a1, numbers. rewrite El, dgetd_entry.
    assert (Q : nsub (entry (an a) "alpha") (ndec 5 1) = entry (an a) "alpha" - 1 / 2) by (change (nsub (entry (an a) "alpha") (ndec 5 1)) with (entry (an a) "alpha" - ndec 5 1); rewrite half; lra). now rewrite Q.
  Qed.
End NoRho.
