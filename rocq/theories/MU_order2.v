(** Wings entered in another order: solve and construction (C78). *)
From Coq Require Import Reals ZArith String Bool Arith Lia Lra List Permutation FunctionalExtensionality.
From Verif Require Import Base Num RVec Geometry Grid Grid_facts Grid_props LLModel PropModel MU Spec_LL LL_props LL_place MU_place Spec_Order LL_order Grid_order MU_order.
Import ListNotations.
Local Open Scope string_scope.
Local Open Scope R_scope.

(** *** Propellers *)
Definition with_wing (w : option (list (wpoint R))) (g : pgeom R) : pgeom R :=
  MkPG (pg_name g) (pg_pos g) (pg_d g) (pg_hd g) (pg_theta g) (pg_gamma g) (pg_forward g) (pg_rot g) (pg_stations g)
       (pg_k g) (pg_motor g) w (pg_units g).
Definition same_prop (n : nat) (f : nat -> nat) (g g' : pgeom R) : Prop :=
  g' = with_wing (pg_wing g') g /\ moved_opt n f (pg_wing g) (pg_wing g').

Lemma pgeom_points E u pts p : make_pgeom E u pts p =
  match make_pgeom E u None p with
  | Ok g => Ok (with_wing (option_map (map (wing_point (pg_pos g) (pg_forward g) (pg_d g))) pts) g)
  | Err e => Err e
  end.
Proof.
  unfold make_pgeom. destruct (zetas p) as [zs|]; cbn [rbind]; [|reflexivity].
  destruct (coefficients p zs) as [c|]; cbn [rbind]; [|reflexivity].
  destruct (pitch E p) as [b|]; cbn [rbind]; [|reflexivity].
  destruct (chord E p zs) as [cb|]; cbn [rbind]; [|reflexivity].
  destruct (make_motor p) as [m|]; cbn [rbind]; [|reflexivity].
  destruct pts as [pts|]; reflexivity.
Qed.
Lemma props_points E u n f pts pts' : moved_opt n f pts pts' -> forall l,
  match rmap (fun p => rlet u := u in make_pgeom E u pts p) l, rmap (fun p => rlet u := u in make_pgeom E u pts' p) l with
  | Ok gs, Ok gs' => Forall2 (same_prop n f) gs gs'
  | Err e, Err e' => e' = e
  | _, _ => False
  end.
Proof.
  intros M. induction l as [|p l IH]; cbn [rmap]; [constructor|]. destruct u as [u|e]; cbn [rbind]; [|reflexivity].
  rewrite (pgeom_points _ _ pts), (pgeom_points _ _ pts'). destruct (make_pgeom E u None p) as [g|]; cbn [rbind]; [|reflexivity].
  cbn [rbind] in IH.
  destruct (rmap (fun p => make_pgeom E u pts p) l), (rmap (fun p => make_pgeom E u pts' p) l); cbn [rbind]; try contradiction; [|exact IH].
  constructor; [|exact IH]. split; [reflexivity|]. cbn [with_wing pg_wing].
  destruct pts, pts'; cbn [moved_opt option_map] in *; try contradiction; [now apply moved_map|exact I].
Qed.
Lemma run_prop_wing E cg a ps w g s : run_prop E cg a ps (with_wing w g) s = run_prop E cg a ps g s.
Proof.
  unfold run_prop, p_calc_forces.
  change (find_coefficients E (with_wing w g)) with (find_coefficients E g).
  change (state_from_power E (with_wing w g)) with (state_from_power E g).
  change (resolve (with_wing w g) cg) with (resolve g cg).
  reflexivity.
Qed.
Lemma set_aero_same n f a a' s : same_flow n f a a' -> p_set_aero (Some a') s = p_set_aero (Some a) s.
Proof.
  intros Ha. unfold p_set_aero. cbn [opt_truthy]. rewrite (flow_truthy n f _ _ Ha). destruct Ha as [Ea _]. destruct (aero_truthy a); [|reflexivity].
  rewrite Ea. reflexivity.
Qed.
Lemma run_props_same E cg n f a a' ps : same_flow n f a a' -> forall gs gs' ss, Forall2 (same_prop n f) gs gs' ->
  run_props E cg (Some a') ps gs' ss = run_props E cg (Some a) ps gs ss.
Proof.
  intros Ha gs gs' ss F. revert ss. induction F as [|g g' gs gs' [Eg _] F IH]; intros [|s ss]; cbn [run_props]; auto.
  rewrite Eg, run_prop_wing. unfold run_prop at 1. 
  assert (R0 : run_prop E cg (Some a') ps g s = run_prop E cg (Some a) ps g s).
  { unfold run_prop, sbind at 1 3. rewrite (set_aero_same n f a a' s Ha). reflexivity. }
  fold (run_prop E cg (Some a') ps g). rewrite R0. destruct (run_prop E cg (Some a) ps g s) as [[q|e] s1]; [|reflexivity]. now rewrite IH.
Qed.
Lemma calc_same E cg n f a a' ps gs gs' ss : same_flow n f a a' -> Forall2 (same_prop n f) gs gs' ->
  calc_forces E cg (Some a') ps gs' ss = calc_forces E cg (Some a) ps gs ss.
Proof.
  intros Ha F. unfold calc_forces. rewrite (run_props_same E cg n f a a' ps Ha gs gs' ss F). destruct Ha as [Ea _]. rewrite Ea. reflexivity.
Qed.
Lemma field_same n f a a' k : same_flow n f a a' -> velocity_field (Some a') k = velocity_field (Some a) k.
Proof.
  intros Ha. unfold velocity_field. cbn [opt_truthy]. rewrite (flow_truthy n f _ _ Ha). destruct Ha as [Ea _]. destruct (aero_truthy a); [|reflexivity].
  rewrite Ea. reflexivity.
Qed.
Lemma slip_moved n f : renumbers n f -> forall gs gs' ss rows rows', Forall2 (same_prop n f) gs gs' -> moved n f rows rows' ->
  moved n f (slipstreams gs ss rows) (slipstreams gs' ss rows').
Proof.
  intros Hf gs gs' ss rows rows' F. revert ss rows rows'. induction F as [|g g' gs gs' [Eg Mw] F IH]; intros [|s ss] rows rows' M; cbn [slipstreams]; auto.
  apply IH. unfold add_slipstream. destruct (pg_wing g) as [pts|], (pg_wing g') as [pts'|]; cbn [moved_opt] in Mw; try contradiction; [|exact M].
  rewrite Eg. change (point_velocity (with_wing (Some pts') g) s) with (point_velocity g s).
  now apply moved_map2.
Qed.
Lemma field_moved n f a rows : renumbers n f -> velocity_field (Some a) n = Ok rows -> moved n f rows rows.
Proof.
  intros Hf. unfold velocity_field. destruct (opt_truthy aero_truthy (Some a)) as [b|].
  - destruct (dget (an b) "V_mag"), (dget (an b) "rho"); intros K; try discriminate. injection K as <-. now apply moved_repeat.
  - intros K. injection K as <-. now apply moved_repeat.
Qed.
Lemma props_solve_same E cg n f pts a a' ps gs gs' ss : renumbers n f -> (pts = None \/ pts = Some n) ->
  same_flow n f a a' -> Forall2 (same_prop n f) gs gs' ->
  match props_solve E cg pts (Some a) ps gs ss, props_solve E cg pts (Some a') ps gs' ss with
  | (Ok (t, r), s), (Ok (t', r'), s') => t' = t /\ moved_opt n f r r' /\ s' = s
  | (Err e, s), (Err e', s') => e' = e /\ s' = s
  | _, _ => False
  end.
Proof.
  intros Hf Hp Ha F. unfold props_solve, sbind. rewrite (calc_same E cg n f a a' ps gs gs' ss Ha F).
  destruct (calc_forces E cg (Some a) ps gs ss) as [[t|e] s1]; [|auto].
  destruct Hp as [->| ->]; [cbn; auto|]. unfold slift. rewrite (field_same n f a a' n Ha).
  destruct (velocity_field (Some a) n) as [rows|e] eqn:Ev; [|auto]. unfold sget, sret. cbn [moved_opt].
  split; [reflexivity|split; [|reflexivity]]. apply slip_moved; auto. eapply field_moved; eauto.
Qed.

(** *** The object *)
Record same_machup (n : nat) (f : nat -> nat) (X X' : machup R) : Prop := {
  sx_rn : renumbers n f;
  sx_grid : match mm_grid X, mm_grid X' with
            | None, None => n = 0%nat /\ mm_points X = None
            | Some g, Some g' => same_grid n f g g' /\ mm_points X = Some n
            | _, _ => False
            end;
  sx_refs : mm_refs X' = mm_refs X;
  sx_some : mm_grid X <> None -> mm_refs X <> None;
  sx_props : Forall2 (same_prop n f) (mm_props X) (mm_props X');
  sx_points : mm_points X' = mm_points X;
  sx_cg : mm_cg X' = mm_cg X
}.

Section Object.
  Variables (n : nat) (f : nat -> nat) (E : menv R) (X X' : machup R) (ps : option (dict (pval R))).
  Hypothesis HX : same_machup n f X X'.
  Hypothesis He : exact_solver (me_lsolve E).
  Let Hf : renumbers n f := sx_rn _ _ _ _ HX.
  Definition run_wings (X : machup R) (c : option (dict R)) (pr : option prop_total) (a : aero_state R) (s : mstate R) :=
    match mm_grid X with
    | None => (Ok (None, pr, add_fm (match pr with Some p => pt_fm p | None => zero_fm end) zero_fm), a, s)
    | Some g =>
        match ll_solve (me_lsolve E) g (mm_cg X) "linear" (Some a) c (m_ll s) with
        | (Err e, l) => (Err e, a, MkM l (m_ps s))
        | (Ok r, l) =>
            match read_ref l r with
            | None => (Err AttributeError, a, MkM l (m_ps s))
            | Some w => (Ok (Some w, pr, add_fm (match pr with Some p => pt_fm p | None => zero_fm end) (r_total w)), a, MkM l (m_ps s))
            end
        end
    end.
  Lemma parts_eq Y a c s : solve_parts E Y ps a c s =
    match mm_props Y with
    | [] => run_wings Y c None a s
    | gs =>
        match props_solve (me_prop E) (mm_cg Y) (mm_points Y) (Some a) ps gs (m_ps s) with
        | (Err e, ss) => (Err e, a, MkM (m_ll s) ss)
        | (Ok (pt, rows), ss) =>
            run_wings Y c (Some pt) (match rows with Some r => set_local a r | None => a end) (MkM (m_ll s) ss)
        end
    end.
  Proof. reflexivity. Qed.
  Lemma wings_same c pr a a' s s' : same_flow n f a a' -> same_model n f s s' ->
    match run_wings X c pr a s, run_wings X' c pr a' s' with
    | (r, b, t), (r', b', t') => r' = r /\ same_flow n f b b' /\ same_model n f t t'
    end.
  Proof.
    intros Ha [Hl Hp]. unfold run_wings. pose proof (sx_grid _ _ _ _ HX) as G.
    destruct (mm_grid X) as [g|], (mm_grid X') as [g'|]; try contradiction; [|split; [reflexivity|split; [exact Ha|split; auto]]].
    rewrite (sx_cg _ _ _ _ HX). destruct G as [G _].
    pose proof (ll_solve_moved n f g g' Hf G (me_lsolve E) (mm_cg X) "linear" (Some a) (Some a') c He Ha (m_ll s) (m_ll s') Hl) as K.
    destruct (ll_solve _ g _ _ _ _ _) as [[r|e] l], (ll_solve _ g' _ _ _ _ _) as [[r'|e'] l']; cbn [fst snd] in K; destruct K as [K1 K2]; try contradiction.
    - subst r'. unfold read_ref. destruct r. rewrite (sl_results _ _ _ _ K2).
      destruct (l_results l); (split; [reflexivity|split; [exact Ha|split; [exact K2|exact Hp]]]).
    - subst e'. split; [reflexivity|split; [exact Ha|split; [exact K2|exact Hp]]].
  Qed.
  Lemma parts_same c a a' s s' : same_flow n f a a' -> same_model n f s s' ->
    match solve_parts E X ps a c s, solve_parts E X' ps a' c s' with
    | (r, b, t), (r', b', t') => r' = r /\ same_flow n f b b' /\ same_model n f t t'
    end.
  Proof.
    intros Ha Hs. rewrite !parts_eq. pose proof (sx_props _ _ _ _ HX) as F. inversion F as [E1 E2|g g' gs gs' Fg Fgs E1 E2].
    - now apply wings_same.
    - rewrite <- E1, <- E2 in F. rewrite (sx_cg _ _ _ _ HX), (sx_points _ _ _ _ HX). destruct Hs as [Hl Hp]. rewrite Hp.
      assert (Pt : mm_points X = None \/ mm_points X = Some n).
      { pose proof (sx_grid _ _ _ _ HX) as G. destruct (mm_grid X), (mm_grid X'); try contradiction; tauto. }
      pose proof (props_solve_same (me_prop E) (mm_cg X) n f (mm_points X) a a' ps (g :: gs) (g' :: gs') (m_ps s) Hf Pt Ha F) as K.
      destruct (props_solve _ _ _ _ _ (g :: gs) _) as [[[t r]|e] s1], (props_solve _ _ _ _ _ (g' :: gs') _) as [[[t' r']|e'] s1']; try contradiction.
      + destruct K as (-> & K2 & ->). apply wings_same; [|split; [exact Hl|reflexivity]].
        destruct r as [r|], r' as [r'|]; cbn [moved_opt] in K2; try contradiction; [|exact Ha].
        destruct Ha as [Ea _]. split; cbn [set_local an als]; [exact Ea|now left].
      + destruct K as [-> ->]. split; [reflexivity|split; [exact Ha|split; [exact Hl|reflexivity]]].
  Qed.
  Lemma host_same a a' c s s' : same_flow n f a a' -> same_model n f s s' ->
    match h_solve (host_of E X ps) a c s, h_solve (host_of E X' ps) a' c s' with
    | (r, b, t), (r', b', t') => r' = r /\ same_flow n f b b' /\ same_model n f t t'
    end.
  Proof.
    intros Ha Hs. cbn [host_of h_solve]. pose proof (parts_same c a a' s s' Ha Hs) as K.
    destruct (solve_parts E X ps a c s) as [[r b] t], (solve_parts E X' ps a' c s') as [[r' b'] t']. destruct K as (-> & K1 & K2). auto.
  Qed.
  Lemma parts_flag : h_parts (host_of E X' ps) = h_parts (host_of E X ps).
  Proof.
    cbn [host_of h_parts]. pose proof (sx_grid _ _ _ _ HX) as G. destruct (mm_grid X), (mm_grid X'); try contradiction; [reflexivity|].
    pose proof (sx_props _ _ _ _ HX) as F. inversion F; reflexivity.
  Qed.
  Lemma stalled_none : forall (secs : list (section R)) cl, List.length cl = List.length secs ->
    (first_stalled secs cl = None <-> forall i s c, nth_error secs i = Some s -> nth_error cl i = Some c -> ngtb c (tm (s_clmax s)) = false).
  Proof.
    induction secs as [|s secs IH]; intros [|c cl] L; cbn [List.length] in L; try discriminate.
    - split; [intros _ [|i] ? ? K; discriminate|reflexivity].
    - cbn [first_stalled]. destruct (ngtb c (tm (s_clmax s))) eqn:Eg.
      + split; [discriminate|]. intros K. specialize (K 0%nat s c eq_refl eq_refl). congruence.
      + rewrite IH by congruence. split.
        * intros K [|i] s0 c0 E1 E2; cbn in E1, E2; [injection E1 as <-; injection E2 as <-; exact Eg|eauto].
        * intros K i s0 c0 E1 E2. exact (K (S i) s0 c0 E1 E2).
  Qed.
  Lemma stalled_same s s' : same_model n f s s' ->
    match h_stalled (host_of E X ps) s, h_stalled (host_of E X' ps) s' with
    | Ok None, Ok None => True
    | Ok (Some _), Ok (Some _) => True
    | Err e, Err e' => e' = e
    | _, _ => False
    end.
  Proof.
    intros [Hl _]. cbn [host_of h_stalled]. pose proof (sx_grid _ _ _ _ HX) as G.
    destruct (mm_grid X) as [g|], (mm_grid X') as [g'|]; try contradiction; [|reflexivity]. destruct G as [G _].
    unfold find_stall_location. pose proof (sl_cl _ _ _ _ Hl) as C. destruct (l_cl (m_ll s)) as [cl|], (l_cl (m_ll s')) as [cl'|]; cbn [moved_opt] in C; try contradiction; [|reflexivity].
    destruct (secs_len n f g g' G) as [L1 L2]. pose proof C as (Lc & Lc' & Ec).
    pose proof (secs_moved n f g g' G (fun s => tm (s_clmax s)) (fun s => eq_refl)) as (_ & _ & Em).
    assert (K : first_stalled (g_sections g) cl = None <-> first_stalled (g_sections g') cl' = None).
    { rewrite !stalled_none by congruence. split.
      - intros K k sk ck Es Ek. assert (Hk : (k < n)%nat) by (rewrite <- L2; apply nth_error_Some; congruence).
        destruct (rn_onto _ _ Hf k Hk) as (i & Hi & <-). rewrite Ec in Ek by auto. specialize (Em i Hi). rewrite !nth_error_map, Es in Em.
        destruct (nth_error (g_sections g) i) as [si|] eqn:Ei; cbn [option_map] in Em; [|discriminate].
        assert (Em' : tm (s_clmax sk) = tm (s_clmax si)) by congruence. rewrite Em'. eauto.
      - intros K i si ci Es Ei. assert (Hi : (i < n)%nat) by (rewrite <- L1; apply nth_error_Some; congruence).
        rewrite <- Ec in Ei by auto. specialize (Em i Hi). rewrite !nth_error_map, Es in Em.
        destruct (nth_error (g_sections g') (f i)) as [sk|] eqn:Ek; cbn [option_map] in Em; [|discriminate].
        assert (Em' : tm (s_clmax si) = tm (s_clmax sk)) by congruence. rewrite Em'. eauto. }
    destruct (first_stalled (g_sections g) cl), (first_stalled (g_sections g') cl'); auto; destruct K as [K1 K2];
      [discriminate (K2 eq_refl)|discriminate (K1 eq_refl)].
  Qed.

  (** *** solve with a file, and the table of distributions *)
  Lemma sim_mu_solve o : same_run n f eq (mu_solve E X ps o) (mu_solve E X' ps o).
  Proof.
    intros w w' Hw. unfold mu_solve. pose proof (sw_aero _ _ _ _ Hw) as A.
    assert (Nn : forall v v', same_world n f v v' ->
      let p := (r <- do_solve (host_of E X ps) ;; match named o with Some _ => sraise UnboundLocalError | None => sret r end) in
      let p' := (r <- do_solve (host_of E X' ps) ;; match named o with Some _ => sraise UnboundLocalError | None => sret r end) in
      match fst (p v), fst (p' v') with Ok a, Ok a' => a = a' | Err e, Err e' => e' = e | _, _ => False end /\ same_world n f (snd (p v)) (snd (p' v'))).
    { intros v v' Hv. cbv zeta. eapply (sim_bind n f eq eq); [|intros r ? <-; destruct (named o); [apply sim_raise|now apply sim_ret]|exact Hv].
      exact (sim_solve n f _ _ host_same). }
    destruct (w_aero w) as [a|], (w_aero w') as [a'|]; try contradiction; cbn [opt_truthy]; [|now apply Nn].
    rewrite (flow_truthy n f _ _ A). destruct (aero_truthy a); [|now apply Nn].
    rewrite (sw_ctl _ _ _ _ Hw). pose proof (parts_same (w_ctl w) a a' (w_model w) (w_model w') A (sw_model _ _ _ _ Hw)) as K.
    destruct (solve_parts E X ps a (w_ctl w) (w_model w)) as [[r b] t], (solve_parts E X' ps a' (w_ctl w) (w_model w')) as [[r' b'] t'].
    destruct K as (-> & K1 & K2). destruct r as [[[wg pr] tot]|e].
    - eapply (sim_bind n f eq eq); [apply sim_file|intros _ _ _; now apply sim_ret|]. destruct Hw. constructor; cbn; auto.
    - cbn [fst snd]. split; [reflexivity|]. destruct Hw. constructor; cbn; auto.
  Qed.
  Lemma dist_nth : forall (secs : list (section R)) al fo cl cm cd i,
    nth_error (dist_rows secs al fo cl cm cd) i =
    match nth_error secs i, nth_error al i, nth_error fo i, nth_error cl i, nth_error cm i, nth_error cd i with
    | Some s, Some a, Some f0, Some c, Some m, Some d =>
        Some (MkDist (s_name s) (s_r s) (s_c s) (s_twist s) (s_dihedral s) (s_sweep s) (s_dS s) a f0 c m d (tm (s_al0 s)))
    | _, _, _, _, _, _ => None
    end.
  Proof.
    induction secs as [|s secs IH]; intros [|a al] [|f0 fo] [|c cl] [|m cm] [|d cd] [|i]; cbn [dist_rows nth_error]; auto;
      try (destruct (nth_error secs i); auto); try (destruct (nth_error al i); auto); try (destruct (nth_error fo i); auto);
      try (destruct (nth_error cl i); auto); try (destruct (nth_error cm i); auto).
  Qed.
  Lemma dist_len : forall (secs : list (section R)) al fo cl cm cd, List.length al = List.length secs -> List.length fo = List.length secs ->
    List.length cl = List.length secs -> List.length cm = List.length secs -> List.length cd = List.length secs ->
    List.length (dist_rows secs al fo cl cm cd) = List.length secs.
  Proof.
    induction secs as [|s secs IH]; intros [|a al] [|f0 fo] [|c cl] [|m cm] [|d cd] L1 L2 L3 L4 L5; cbn [List.length] in *; try discriminate; cbn [dist_rows List.length]; auto.
  Qed.
  Lemma wing_rows_same g g' r s s' : same_grid n f g g' -> same_ll n f s s' ->
    match wing_rows g r s, wing_rows g' r s' with
    | Ok t, Ok t' => moved n f (map anonymous_row t) (map anonymous_row t')
    | Err e, Err e' => e' = e
    | _, _ => False
    end.
  Proof.
    intros G Hl. unfold wing_rows, ll_distributions.
    pose proof (sl_alphas _ _ _ _ Hl) as A1. pose proof (sl_forces _ _ _ _ Hl) as A2. pose proof (sl_cl _ _ _ _ Hl) as A3.
    pose proof (sl_cm _ _ _ _ Hl) as A4. pose proof (sl_cd _ _ _ _ Hl) as A5.
    destruct (l_alphas s) as [al|], (l_alphas s') as [al'|]; cbn [moved_opt] in A1; try contradiction; [|reflexivity].
    destruct (l_forces s) as [fo|], (l_forces s') as [fo'|]; cbn [moved_opt] in A2; try contradiction; [|reflexivity].
    destruct (l_cl s) as [cl|], (l_cl s') as [cl'|]; cbn [moved_opt] in A3; try contradiction; [|reflexivity].
    destruct (l_cm s) as [cm|], (l_cm s') as [cm'|]; cbn [moved_opt] in A4; try contradiction; [|reflexivity].
    destruct (l_cd s) as [cd|], (l_cd s') as [cd'|]; cbn [moved_opt] in A5; try contradiction; [|reflexivity].
    cbn [rbind]. destruct (secs_len n f g g' G) as [L1 L2]. destruct A1 as (? & ? & E1), A2 as (? & ? & E2), A3 as (? & ? & E3), A4 as (? & ? & E4), A5 as (? & ? & E5).
    split; [rewrite !map_length, dist_len; congruence|split; [rewrite !map_length, dist_len; congruence|]].
    intros i Hi. rewrite !nth_error_map, !dist_nth, E1, E2, E3, E4, E5 by auto.
    destruct G as (_ & _ & _ & _ & M). specialize (M i Hi). rewrite !nth_error_map in M.
    destruct (nth_error (g_sections g') (f i)) as [s1|], (nth_error (g_sections g) i) as [s2|]; cbn [option_map] in M |- *; try discriminate; [|reflexivity].
    assert (M' : anonymous s1 = anonymous s2) by (pose proof (f_equal (fun o => match o with Some x => x | None => anonymous s1 end) M) as K; exact K).
    destruct (nth_error al i), (nth_error fo i), (nth_error cl i), (nth_error cm i), (nth_error cd i); try reflexivity.
    cbn [option_map]. unfold anonymous_row. cbn [wr_row wr_cl_ref d_cp d_chord d_twist d_dihedral d_sweep d_area d_alpha d_force d_cl d_cm d_cd d_al0].
    change (s_r s1) with (s_r (anonymous s1)). change (s_c s1) with (s_c (anonymous s1)). change (s_twist s1) with (s_twist (anonymous s1)).
    change (s_dihedral s1) with (s_dihedral (anonymous s1)). change (s_sweep s1) with (s_sweep (anonymous s1)). change (s_dS s1) with (s_dS (anonymous s1)).
    change (s_al0 s1) with (s_al0 (anonymous s1)). rewrite M'. reflexivity.
  Qed.
  Lemma blades_same w w' : same_world n f w w' ->
    fst (blades_of (mm_props X') w') = fst (blades_of (mm_props X) w) /\
    same_world n f (snd (blades_of (mm_props X) w)) (snd (blades_of (mm_props X') w')).
  Proof.
    intros Hw. pose proof (sx_props _ _ _ _ HX) as F. pose proof (sw_model _ _ _ _ Hw) as [Hl Hp].
    assert (D : forall ss, prop_distributions (mm_props X') ss = prop_distributions (mm_props X) ss /\
      map2 (fun g s => find_Vi (pg_stations g) s) (mm_props X') ss = map2 (fun g s => find_Vi (pg_stations g) s) (mm_props X) ss).
    { clear - F. induction F as [|g g' gs gs' [Eg _] F IH]; intros [|s ss]; cbn [prop_distributions map2]; auto.
      destruct (IH ss) as [I1 I2]. rewrite I1, I2, Eg. split; reflexivity. }
    assert (Q : mm_props X = [] /\ mm_props X' = [] \/ mm_props X <> [] /\ mm_props X' <> []).
    { clear - F. inversion F; [left|right]; split; auto; discriminate. }
    assert (B : forall gs v, gs <> [] -> blades_of gs v = (Ok (prop_distributions gs (m_ps (w_model v))),
       MkW (w_aero v) (w_ctl v) (MkM (m_ll (w_model v)) (map2 (fun g s => find_Vi (pg_stations g) s) gs (m_ps (w_model v)))) (w_files v) (w_log v))).
    { intros [|g gs] v K; [contradiction|reflexivity]. }
    destruct Q as [[-> ->]|[Q1 Q2]]; [cbn; auto|]. rewrite !B by auto. cbn [fst snd]. rewrite Hp.
    destruct (D (m_ps (w_model w))) as [-> ->]. split; [reflexivity|]. destruct Hw. constructor; cbn; auto. split; auto.
  Qed.
  Lemma sim_distributions k : same_run n f (same_table n f) (distributions E X ps k None) (distributions E X' ps k None).
  Proof.
    rewrite !distributions_eq. eapply (sim_bind n f eq); [exact (sim_solve n f _ _ host_same)|]. intros _ _ _.
    eapply (sim_bind n f (same_model n f)).
    { intros w w' Hw. cbn. split; [apply (sw_model _ _ _ _ Hw)|exact Hw]. }
    intros m m' Hm. eapply (sim_bind n f (fun t t' => moved n f (map anonymous_row t) (map anonymous_row t'))).
    - rewrite (sx_refs _ _ _ _ HX). pose proof (sx_grid _ _ _ _ HX) as G.
      assert (Z : n = 0%nat -> moved n f (map anonymous_row []) (map anonymous_row [])).
      { intros ->. split; [reflexivity|split; [reflexivity|]]. intros; lia. }
      pose proof (sx_some _ _ _ _ HX) as Sm.
      destruct (mm_grid X) as [g|], (mm_grid X') as [g'|]; try contradiction; [|apply sim_ret, Z, G].
      destruct (mm_refs X) as [r|]; [|exfalso; now apply Sm]. pose proof (wing_rows_same g g' r (m_ll m) (m_ll m') (proj1 G) (proj1 Hm)) as K.
      intros w w' Hw. unfold slift. cbn [fst snd]. split; [|exact Hw]. destruct (wing_rows g r (m_ll m)), (wing_rows g' r (m_ll m')); auto.
    - intros t t' Ht. eapply (sim_bind n f eq).
      + intros w w' Hw. destruct (blades_same w w' Hw) as [B1 B2]. rewrite B1. split; [|exact B2].
        destruct (fst (blades_of (mm_props X) w)); reflexivity.
      + intros b ? <-. eapply (sim_bind n f eq); [now apply sim_ret|]. intros _ _ _. apply sim_ret. split; [exact Ht|reflexivity].
  Qed.
  Lemma init_same : same_model n f (init_mstate X) (init_mstate X').
  Proof.
    unfold init_mstate. split; cbn [m_ll m_ps].
    - pose proof (sx_grid _ _ _ _ HX) as G. destruct (mm_grid X) as [g|], (mm_grid X') as [g'|]; try contradiction.
      + destruct G as [(G1 & G2 & _) _]. rewrite G1, G2. now apply init_moved.
      + destruct G as [G _]. rewrite <- G. now apply init_moved.
    - pose proof (sx_props _ _ _ _ HX) as F. clear - F. induction F as [|g g' gs gs' [Eg _] F IH]; cbn [map]; [reflexivity|].
      rewrite IH, Eg. reflexivity.
  Qed.
End Object.

(** *** Construction *)
Lemma machups_same E g pl pl' : reordered_by g pl pl' ->
  match make_machup E pl, make_machup E pl' with
  | Ok X, Ok X' => exists n f, same_machup n f X X'
  | Err _, Err _ => True
  | _, _ => False
  end.
Proof.
  intros Hr. unfold make_machup. rewrite (ro_props _ _ _ Hr), (ro_cg _ _ _ Hr).
  assert (En : a_wings pl = [] <-> a_wings pl' = []).
  { pose proof (ro_listed _ _ _ Hr) as P. split; intros K; rewrite K in P; cbn [map] in P.
    - apply Permutation_nil in P. now apply map_eq_nil in P.
    - apply Permutation_sym, Permutation_nil in P. now apply map_eq_nil in P. }
  assert (Un : get_units pl' = get_units pl) by (unfold get_units; now rewrite (ro_units _ _ _ Hr)).
  assert (Pr : forall n f pts pts', moved_opt n f pts pts' ->
    match match a_props pl with [] => Ok [] | _ => make_props (me_prop E) pl pts end,
          match a_props pl with [] => Ok [] | _ => make_props (me_prop E) pl' pts' end with
    | Ok gs, Ok gs' => Forall2 (same_prop n f) gs gs' | Err e, Err e' => e' = e | _, _ => False end).
  { intros n f pts pts' M. unfold make_props. rewrite Un, (ro_props _ _ _ Hr). destruct (a_props pl) as [|p l]; [constructor|].
    apply props_points. exact M. }
  destruct (a_wings pl) as [|e l] eqn:Ew.
  - destruct En as [En _]. rewrite (En eq_refl). cbn [rbind option_map]. specialize (Pr 0%nat (fun i => i) None None I).
    match type of Pr with match ?p with Ok _ => match ?q with _ => _ end | Err _ => _ end => destruct p as [gs|e1], q as [gs'|e2] end;
      cbn [rbind]; try contradiction; [|exact I].
    exists 0%nat, (fun i => i). constructor; cbn [mm_grid mm_refs mm_props mm_points mm_cg]; auto.
    constructor; auto.
  - destruct (a_wings pl') as [|e' l'] eqn:Ew'; [destruct En as [_ En]; discriminate (En eq_refl)|].
    pose proof (grids_same g pl pl' Hr) as G. destruct (make_grid true pl) as [gr|] eqn:G1, (make_grid true pl') as [gr'|] eqn:G2; cbn [rbind option_map]; try contradiction; [|exact I].
    destruct G as [(f & Hf & G) Er].
    specialize (Pr (g_num gr) f (Some (map (@s_r R) (g_sections gr))) (Some (map (@s_r R) (g_sections gr'))) (secs_moved _ _ _ _ G (@s_r R) (fun s => eq_refl))).
    match type of Pr with match ?p with Ok _ => match ?q with _ => _ end | Err _ => _ end => destruct p as [gs|e1], q as [gs'|e2] end;
      cbn [rbind]; try contradiction; [|exact I].
    destruct (secs_len _ _ _ _ G) as [L1 L2].
    exists (g_num gr), f. constructor; cbn [mm_grid mm_refs mm_props mm_points mm_cg]; rewrite ?map_length; auto; try congruence.
Qed.

Theorem order_does_not_matter E pl pl' : reordered pl pl' -> exact_solver (me_lsolve E) ->
  match make_machup E pl, make_machup E pl' with
  | Ok X, Ok X' =>
      exists n f, renumbers n f /\
        match mm_grid X, mm_grid X' with
        | Some g, Some g' => moved n f (map anonymous (g_sections g)) (map anonymous (g_sections g'))
        | None, None => n = 0%nat
        | _, _ => False
        end /\
        mm_refs X' = mm_refs X /\
        same_model n f (init_mstate X) (init_mstate X') /\
        forall ps, let H := host_of E X ps in let H' := host_of E X' ps in
          (forall o, same_run n f eq (mu_solve E X ps o) (mu_solve E X' ps o)) /\
          same_run n f eq (stability_derivatives H) (stability_derivatives H') /\
          same_run n f eq (control_derivatives H) (control_derivatives H') /\
          same_run n f eq (damping_derivatives H) (damping_derivatives H') /\
          (forall o, same_run n f eq (derivatives H o) (derivatives H' o)) /\
          (forall L o e, same_run n f eq (target_lift H L o e) (target_lift H' L o e)) /\
          (forall L M o e, same_run n f eq (pitch_trim H E L M o e) (pitch_trim H' E L M o e)) /\
          same_run n f (same_answer same_stall) (stall_onset H E None) (stall_onset H' E None) /\
          (forall W e, same_run n f (same_answer same_stall) (stall_airspeed H E W None e) (stall_airspeed H' E W None e)) /\
          (forall o, same_run n f eq (find_aero_center H E o) (find_aero_center H' E o)) /\
          (forall k, same_run n f (same_table n f) (distributions E X ps k None) (distributions E X' ps k None))
  | Err _, Err _ => True
  | _, _ => False
  end.
Proof.
  intros [g Hr] He. pose proof (machups_same E g pl pl' Hr) as K.
  destruct (make_machup E pl) as [X|], (make_machup E pl') as [X'|]; try contradiction; [|exact I].
  destruct K as (n & f & HX). exists n, f. split; [apply (sx_rn _ _ _ _ HX)|]. split.
  { pose proof (sx_grid _ _ _ _ HX) as G. destruct (mm_grid X), (mm_grid X'); try contradiction; [apply G|apply G]. }
  split; [apply (sx_refs _ _ _ _ HX)|]. split; [now apply init_same|]. intros ps. cbv zeta.
  pose proof (host_same n f E X X' ps HX He) as Hs. pose proof (sx_refs _ _ _ _ HX : h_refs (host_of E X' ps) = h_refs (host_of E X ps)) as Hre.
  pose proof (sx_cg _ _ _ _ HX : h_cg (host_of E X' ps) = h_cg (host_of E X ps)) as Hcg.
  pose proof (parts_flag n f E X X' ps HX) as Hp. pose proof (stalled_same n f E X X' ps HX) as Hst.
  split; [intros; now apply sim_mu_solve|].
  split; [now apply sim_stability|]. split; [now apply sim_control|]. split; [now apply sim_damping|].
  split; [intros; now apply sim_derivatives|]. split; [intros; now apply sim_target|]. split; [intros; now apply sim_trim|].
  split; [now apply sim_onset|]. split; [intros; now apply sim_airspeed|]. split; [intros; now apply sim_center|].
  intros; now apply sim_distributions.
Qed.
