(** Two solves that are mirror images of each other (C76). *)
From Coq Require Import Reals ZArith String Bool Arith Lia Lra List.
From Verif Require Import Base Num RVec Geometry Api Grid LLModel Spec_Grid Spec_Geom Spec_LL LL_state LL_R LL_solve
  Grid_facts Grid_thm Mirror LL_props LL_thm LL_thm2 LL_sym Spec_Mirror LL_mirror LL_mirror2.
Import ListNotations.
Local Open Scope string_scope.
Local Open Scope R_scope.

(** What a solve in a given flow hands to the linear system. *)
Lemma local_call ls g h k d v u rho : g_num g = List.length (g_sections g) ->
  k_aero k = Some d -> given_aero (Some d) -> base_flow (g_num g) d = Ok (v, u, rho) ->
  k_stype k = "linear" ->
  exists s, call_solve ls g k (after ls g h) = linear_solve ls g (k_cg k) s /\ sized g s /\
    controls_are g (acting g h k) s /\ l_uinf s = u /\
    l_v s = map2 (at_section (body_rates (an d)) (k_cg k)) v (g_sections g) /\
    l_rho s = rho /\ List.length v = g_num g /\ List.length rho = g_num g.
Proof.
  intros Hn Ek Ha Hb Hst.
  assert (Hd : forall s1 s2, process_aero g (k_cg k) (k_aero k) (after ls g h) = (Ok tt, s1) ->
     process_control g (k_ctl k) s1 = (Ok tt, s2) ->
     call_solve ls g k (after ls g h) = linear_solve ls g (k_cg k) s2).
  { intros s1 s2 H1 H2. unfold call_solve, ll_solve, sbind. rewrite H1, H2, Hst. reflexivity. }
  rewrite Ek in Hd.
  pose proof (process_aero_base g (k_cg k) d (after ls g h) Hn Ha) as P.
  rewrite Hb in P.
  destruct P as (s1 & E1 & Ev & Eu & Er & _ & _ & L1 & L2).
  pose proof (process_aero_sized g Hn (k_cg k) (Some d) _ (after_sized ls g Hn h)) as Z1. rewrite E1 in Z1. cbn [snd] in Z1.
  pose proof (process_control_sized g (k_ctl k) _ Z1) as Z2.
  destruct (process_control g (k_ctl k) s1) as [[[]|e] s2] eqn:E2;
    [|unfold process_control in E2; destruct (opt_truthy dtruthy (k_ctl k)); discriminate].
  cbn [snd] in Z2. destruct (process_control_flow _ _ _ E2) as (F1 & F2 & F3 & _).
  exists s2. specialize (Hd s1 s2 E1 E2).
  assert (Hc : controls_are g (acting g h k) s2).
  { apply deflections_controls; auto.
    pose proof (controls_in_force ls g (h ++ [k])) as E. rewrite after_app, Hd in E.
    unfold linear_solve in E. destruct (ls _ _); exact E. }
  refine (conj Hd (conj Z2 (conj Hc (conj _ (conj _ (conj _ (conj L1 L2))))))); congruence.
Qed.

Lemma freestream_mirror (V a b : R) : freestream V a (- b) = mirror (freestream V a b).
Proof.
  unfold freestream. cbv zeta.
  assert (E : nrad (- b) = - nrad (T := R) b) by (rnum; field).
  rewrite E. rnum. rewrite sin_neg, cos_neg. unfold mirror. cbn [vx vy vz].
  replace (1 - sin (a * PI / 180) * sin (a * PI / 180) * - sin (b * PI / 180) * - sin (b * PI / 180))
    with (1 - sin (a * PI / 180) * sin (a * PI / 180) * sin (b * PI / 180) * sin (b * PI / 180)) by ring.
  apply vec_eq; cbn [vx vy vz]; ring.
Qed.
Lemma unit_mirror (v : vec3 R) : unit_of (mirror v) = mirror (unit_of v).
Proof. unfold unit_of. rewrite mirror_norm, !vdivs_scale, mirror_scale. reflexivity. Qed.
Lemma rates_mirror d d' : mirrored_flow d d' -> body_rates (an d') = vopp (mirror (body_rates (an d))).
Proof.
  intros H. unfold body_rates, mirror, vopp. cbn [vx vy vz].
  rewrite (mf_roll H), (mf_pitch H), (mf_yaw H). apply vec_eq; cbn [vx vy vz]; rnum; ring.
Qed.
Lemma at_section_mirror w cg v (s s' : section R) : s_r s' = mirror (s_r s) ->
  at_section (vopp (mirror w)) (mirror cg) (mirror v) s' = mirror (at_section w cg v s).
Proof. intros E. unfold at_section. rewrite E. unfold mirror. vring. Qed.

Lemma efficiency_even x : efficiency (- x) = efficiency x.
Proof. unfold efficiency. now rewrite Rabs_Ropp. Qed.
Lemma sec_pair_r e s s' : sec_pair e s s' -> s_r s = mirror (s_r s').
Proof. intros [a b H|a H]; [rewrite H; reflexivity|]. symmetry. apply (fs_r _ H). Qed.
Lemma sec_pair_commanded e s s' c c' : mirrored_controls c c' -> sec_pair e s s' -> commanded c' s = e * commanded c s'.
Proof.
  intros [A E U F] [a b H|a H]; unfold commanded; rewrite A, E, U, F.
  - rewrite H. unfold mirror_section. cbn [s_mix_a s_mix_e s_mix_r s_mix_f]. ring.
  - destruct (fs_mix _ H) as [-> ->]. ring.
Qed.
Lemma degrees_opp x : degrees (- x) = - degrees x.
Proof. unfold degrees. field. Qed.

(** flows whose local velocities and densities are mirror images under the pairing *)
Definition flow_pair (n : nat) (sg : nat -> nat) (v v' : list (vec3 R)) (rho rho' : list R) : Prop :=
  forall i, (i < n)%nat -> nth_error v' (sg i) = option_map mirror (nth_error v i) /\ nth_error rho' (sg i) = nth_error rho i.
Lemma cells_matched g s s' v v' w cg rho rho' c c' sg e d0 : flow_pair (List.length (g_sections g)) sg v v' rho rho' -> g_num g = List.length (g_sections g) ->
  matched (g_sections g) sg e -> mirrored_controls c c' ->
  sized g s -> controls_are g c s ->
  l_v s = map2 (at_section w cg) v (g_sections g) -> l_rho s = rho ->
  sized g s' -> controls_are g c' s' ->
  l_v s' = map2 (at_section (vopp (mirror w)) (mirror cg)) v' (g_sections g) ->
  l_rho s' = rho' ->
  List.length (cells g s) = List.length (g_sections g) /\ List.length (cells g s') = List.length (g_sections g) /\
  forall i, (i < List.length (g_sections g))%nat -> cell_pair (e i) (index_of d0 (cells g s') (sg i)) (index_of d0 (cells g s) i).
Proof.
  intros Hfl Hn Hma Hc Z K Ev Er Z' K' Ev' Er'.
  assert (L : List.length (cells g s) = List.length (g_sections g)) by (destruct Z as (? & ? & ? & ?); unfold cells; apply cells_of_length; auto).
  assert (L' : List.length (cells g s') = List.length (g_sections g)) by (destruct Z' as (? & ? & ? & ?); unfold cells; apply cells_of_length; auto).
  refine (conj L (conj L' _)). intros i Hi.
  pose proof (sw_lt _ _ (ma_swaps _ _ _ Hma) i Hi) as Hj.
  destruct (nth_error (cells g s) i) as [ci|] eqn:Ei; [|apply nth_error_None in Ei; lia].
  destruct (nth_error (cells g s') (sg i)) as [cj|] eqn:Ej; [|apply nth_error_None in Ej; lia].
  unfold index_of. rewrite (nth_error_nth _ _ _ Ei), (nth_error_nth _ _ _ Ej).
  destruct (cell_eff _ _ _ _ _ Z K Ei) as [D1 D2]. destruct (cell_eff _ _ _ _ _ Z' K' Ej) as [D1' D2'].
  destruct Z as (Lv & Lr & Ld & Le). destruct Z' as (Lv' & Lr' & Ld' & Le').
  unfold cells in Ei, Ej. rewrite cells_of_nth in Ei, Ej by auto.
  rewrite Ev, Er in Ei. rewrite Ev', Er' in Ej. rewrite !map2_nth in Ei, Ej.
  destruct (nth_error (g_sections g) i) as [a|] eqn:Ea; [|discriminate].
  destruct (nth_error (g_sections g) (sg i)) as [b|] eqn:Eb; [|discriminate].
  pose proof (ma_pair _ _ _ Hma _ _ _ Ea Eb) as Hp.
  destruct (Hfl i Hi) as [F1 F2]. rewrite F1, F2 in Ej.
  destruct (nth_error v i) as [v1|] eqn:Ev1; [|discriminate]. cbn [option_map] in Ej.
  destruct (nth_error rho i) as [r1|] eqn:Er1; [|discriminate].
  destruct (nth_error (l_delta s) i) as [de|]; [|discriminate]. destruct (nth_error (l_eff s) i) as [ef|]; [|discriminate].
  destruct (nth_error (l_delta s') (sg i)) as [de'|]; [|discriminate]. destruct (nth_error (l_eff s') (sg i)) as [ef'|]; [|discriminate].
  injection Ei as <-. injection Ej as <-. cbn [c_sec c_v c_rho c_delta c_eff] in *.
  rewrite (sec_pair_commanded _ _ _ _ _ Hc Hp) in D1', D2'.
  pose proof (at_section_mirror w cg v1 a b (sec_pair_r _ _ _ Hp)) as Hat.
  destruct Hp as [b a Hp|a Hp].
  - rewrite Rmult_1_l in D1', D2'. constructor. constructor; cbn [c_sec c_v c_rho c_delta c_eff]; auto; try congruence.
    rewrite Hp. apply mirrored_of.
  - replace (-1 * commanded c a) with (- commanded c a) in D1', D2' by ring.
    rewrite degrees_opp in D1', D2'. rewrite efficiency_even in D2'.
    constructor. constructor; cbn [c_sec c_v c_rho c_delta c_eff]; auto; try congruence.
    rewrite D2, D2'. ring.
Qed.

Lemma carried_wf (cs : list (cell R)) sg e d cs' : List.length cs' = List.length cs -> swaps (List.length cs) sg ->
  (forall i, (i < List.length cs)%nat -> e (sg i) = e i) ->
  (forall i, (i < List.length cs)%nat -> cell_pair (e i) (index_of d cs' (sg i)) (index_of d cs i)) ->
  (forall i, (i < List.length cs')%nat -> cell_pair (e i) (index_of d cs (sg i)) (index_of d cs' i)).
Proof.
  intros L Hs He Hm i Hi. rewrite L in Hi. pose proof (sw_lt _ _ Hs i Hi) as Hj.
  specialize (Hm (sg i) Hj). rewrite (sw_inv _ _ Hs) in Hm by auto. rewrite (He i Hi) in Hm. now apply cell_pair_sym.
Qed.
Lemma solver_pair ls u cs cs' sg e d : exact_solver ls -> List.length cs' = List.length cs -> swaps (List.length cs) sg ->
  (forall i, (i < List.length cs)%nat -> e (sg i) = e i) ->
  (forall i, (i < List.length cs)%nat -> cell_pair (e i) (index_of d cs' (sg i)) (index_of d cs i)) ->
  ls (a_matrix (mirror u) cs') (map b_entry cs') = option_map (carried cs sg e) (ls (a_matrix u cs) (map b_entry cs)).
Proof.
  intros He L Hs Hsg Hm.
  pose proof (carried_wf cs sg e d cs' L Hs Hsg Hm) as Hm'.
  assert (Hs' : swaps (List.length cs') sg) by (rewrite L; auto).
  assert (Hsg' : forall i, (i < List.length cs')%nat -> e (sg i) = e i) by (rewrite L; auto).
  assert (F : forall x, solves (a_matrix u cs) (map b_entry cs) x -> solves (a_matrix (mirror u) cs') (map b_entry cs') (carried cs sg e x)).
  { intros x. now apply (carried_solves u cs cs' sg e d). }
  assert (B : forall x, solves (a_matrix (mirror u) cs') (map b_entry cs') x -> solves (a_matrix u cs) (map b_entry cs) (carried cs sg e x)).
  { intros x Hx. pose proof (carried_solves (mirror u) cs' cs sg e d (eq_sym L) Hs' Hsg' Hm' x Hx) as K. rewrite mirror_mirror in K.
    unfold carried in *. rewrite L in K. exact K. }
  assert (I : forall x v, solves (a_matrix v cs) (map b_entry cs) x -> carried cs sg e (carried cs sg e x) = x).
  { intros x v Hx. destruct (solves_rows _ _ _ Hx) as [Lx _]. now apply (carried_carried cs cs' sg e d). }
  assert (I' : forall x v, solves (a_matrix v cs') (map b_entry cs') x -> carried cs sg e (carried cs sg e x) = x).
  { intros x v Hx. destruct (solves_rows _ _ _ Hx) as [Lx _]. apply (carried_carried cs cs' sg e d); auto. congruence. }
  destruct (a_matrix_square u cs) as [Q1 Q2]. destruct (a_matrix_square (mirror u) cs') as [Q1' Q2'].
  pose proof (He _ (map b_entry cs) Q1) as E1. pose proof (He _ (map b_entry cs') Q1') as E2.
  rewrite Q2, map_length in E1. rewrite Q2', map_length in E2. specialize (E1 eq_refl). specialize (E2 eq_refl).
  destruct (ls (a_matrix u cs) (map b_entry cs)) as [x|]; destruct (ls (a_matrix (mirror u) cs') (map b_entry cs')) as [x'|]; cbn [option_map].
  - f_equal. symmetry. apply (proj2 E2). apply F, E1.
  - exfalso. apply E2. exists (carried cs sg e x). split; [apply F, E1|]. intros y Hy.
    rewrite <- (proj2 E1 _ (B _ Hy)). symmetry. eapply I'; eauto.
  - exfalso. apply E1. exists (carried cs sg e x'). split; [apply B, E2|]. intros y Hy.
    rewrite <- (proj2 E2 _ (F _ Hy)). symmetry. eapply I; eauto.
  - reflexivity.
Qed.

Lemma call_solve_no_keys ls g h k d : g_num g = List.length (g_sections g) ->
  k_aero k = Some d -> given_aero (Some d) -> als d = None -> dget (an d) "V_mag" = None \/ dget (an d) "rho" = None ->
  fst (call_solve ls g k (after ls g h)) = Err RuntimeError.
Proof.
  intros Hn Ek Ha Hals H. pose proof (process_aero_base g (k_cg k) d (after ls g h) Hn Ha) as P.
  unfold base_flow in P. rewrite Hals in P. unfold call_solve, ll_solve, sbind. rewrite Ek.
  destruct H as [H|H]; rewrite H in P; [|destruct (dget (an d) "V_mag")]; rewrite P; reflexivity.
Qed.
Lemma call_solve_not_linear ls g h k d V rho : g_num g = List.length (g_sections g) ->
  k_aero k = Some d -> given_aero (Some d) -> als d = None -> dget (an d) "V_mag" = Some V -> dget (an d) "rho" = Some rho ->
  k_stype k <> "linear" -> fst (call_solve ls g k (after ls g h)) = Err RuntimeError.
Proof.
  intros Hn Ek Ha Hals HV Hr Hst. pose proof (process_aero_base g (k_cg k) d (after ls g h) Hn Ha) as P.
  unfold base_flow in P. rewrite Hals, HV, Hr in P. destruct P as (s1 & E1 & _).
  unfold call_solve, ll_solve, sbind. rewrite Ek, E1.
  destruct (process_control g (k_ctl k) s1) as [[[]|e] s2] eqn:E2;
    [|unfold process_control in E2; destruct (opt_truthy dtruthy (k_ctl k)); discriminate].
  apply String.eqb_neq in Hst. rewrite Hst. reflexivity.
Qed.

(** Two solves in mirrored local flows. *)
Definition mirrored_solves (g : grid R) (a b : res result_ref * ll_state R) : Prop :=
  match a, b with
  | (Ok _, s), (Ok _, s') =>
      exists r r' gam gam', l_results s = Some r /\ l_results s' = Some r' /\ mirrored_results r r' /\
        l_gamma s = Some gam /\ l_gamma s' = Some gam' /\ mirrored_circulation (g_sections g) gam gam'
  | (Err e, _), (Err e', _) => e' = e
  | _, _ => False
  end.
Lemma mirrored_call ls g h h' k k' d d' sg e v v' u rho rho' :
  exact_solver ls -> g_num g = List.length (g_sections g) -> matched (g_sections g) sg e ->
  k_aero k = Some d -> k_aero k' = Some d' -> given_aero (Some d) -> given_aero (Some d') ->
  base_flow (g_num g) d = Ok (v, u, rho) -> base_flow (g_num g) d' = Ok (v', mirror u, rho') ->
  flow_pair (List.length (g_sections g)) sg v v' rho rho' ->
  body_rates (an d') = vopp (mirror (body_rates (an d))) ->
  k_cg k' = mirror (k_cg k) -> k_stype k = "linear" -> k_stype k' = "linear" -> mirrored_controls (acting g h k) (acting g h' k') ->
  mirrored_solves g (call_solve ls g k (after ls g h)) (call_solve ls g k' (after ls g h')).
Proof.
  intros He Hn Hma Ek Ek' Ha Ha' Hb Hb' Hfl Hw Hcg Hl Hl' Hc.
  destruct (local_call ls g h k d v u rho Hn Ek Ha Hb Hl) as (s & -> & Z & K & Eu & Ev & Eo & _ & _).
  destruct (local_call ls g h' k' d' v' (mirror u) rho' Hn Ek' Ha' Hb' Hl') as (s' & -> & Z' & K' & Eu' & Ev' & Eo' & _ & _).
  rewrite Hw, Hcg in Ev'.
  set (d0 := MkCell (zero_section (T := R)) vzero 0 0 0 : cell R).
  destruct (cells_matched g s s' _ _ _ _ _ _ _ _ sg e d0 Hfl Hn Hma Hc Z K Ev Eo Z' K' Ev' Eo') as (L & L' & Hm).
  assert (LL : List.length (cells g s') = List.length (cells g s)) by congruence.
  pose proof (ma_swaps _ _ _ Hma) as Hsw. pose proof (ma_sign _ _ _ Hma) as Hsg. rewrite <- L in Hm, Hsw, Hsg.
  pose proof (solver_pair ls (l_uinf s) (cells g s) (cells g s') sg e d0 He LL Hsw Hsg Hm) as Hls.
  assert (Hu : l_uinf s' = mirror (l_uinf s)) by congruence.
  unfold mirrored_solves, linear_solve. rewrite Hu, Hls.
  destruct (ls (a_matrix (l_uinf s) (cells g s)) (map b_entry (cells g s))) as [gam|] eqn:Eg; cbn [option_map]; [|reflexivity].
  destruct (exact_answer _ _ _ _ He Eg) as [Hsol _]. destruct (solves_rows _ _ _ Hsol) as [Lg _].
  cbn [l_results l_gamma]. eexists _, _, gam, _. rewrite Hcg.
  refine (conj eq_refl (conj eq_refl (conj _ (conj eq_refl (conj eq_refl _))))).
  - now apply (assemble_pair _ _ _ _ _ _ d0).
  - split; [rewrite carried_length; congruence|].
    intros i t y Hi Hy. assert (Hin : (i < List.length (cells g s))%nat) by (rewrite L; apply nth_error_Some; congruence).
    pose proof (sw_lt _ _ Hsw i Hin) as Hj.
    pose proof (carried_image (cells g s) sg e Hsw Hsg gam i Hin) as Ec.
    assert (Ey : index_of 0 gam i = y) by (unfold index_of; now apply nth_error_nth). rewrite Ey in Ec.
    assert (Eg' : nth_error (carried (cells g s) sg e gam) (sg i) = Some (e i * y)).
    { rewrite <- Ec. unfold index_of. apply nth_error_nth'. rewrite carried_length. exact Hj. }
    destruct (nth_error (g_sections g) (sg i)) as [t'|] eqn:Et; [|apply nth_error_None in Et; lia].
    pose proof (ma_pair _ _ _ Hma _ _ _ Hi Et) as Hp.
    assert (Hself : e i = -1 -> sg i = i) by (apply (ma_self _ _ _ Hma); rewrite <- L; auto).
    inversion Hp as [b a Hp' Ee Eb Ea|a Hp' Ee Ea Eb]; subst.
    + left. exists (sg i), t'. refine (conj Et (conj Hp' _)). rewrite Eg', <- Ee. f_equal. ring.
    + right. rewrite (Hself (eq_sym Ee)) in Eg'. split.
      * pose proof (fs_r _ Hp') as F. apply (f_equal (@vy R)) in F. unfold mirror in F. cbn [vy] in F. lra.
      * rewrite Eg', <- Ee. f_equal. ring.
Qed.

Lemma C76_lemma ls cosine pl g h h' k k' d d' :
  exact_solver ls -> built pl -> make_grid cosine pl = Ok g -> mirror_symmetric pl ->
  k_aero k = Some d -> k_aero k' = Some d' -> given_aero (Some d) -> given_aero (Some d') -> mirrored_flow d d' ->
  k_cg k' = mirror (k_cg k) -> k_stype k' = k_stype k -> mirrored_controls (acting g h k) (acting g h' k') ->
  match call_solve ls g k (after ls g h), call_solve ls g k' (after ls g h') with
  | (Ok _, s), (Ok _, s') =>
      exists r r' gam gam', l_results s = Some r /\ l_results s' = Some r' /\ mirrored_results r r' /\
        l_gamma s = Some gam /\ l_gamma s' = Some gam' /\ mirrored_circulation (g_sections g) gam gam'
  | (Err e, _), (Err e', _) => e' = e
  | _, _ => False
  end.
Proof.
  intros He Hb Hg Hsym Ek Ek' Ha Ha' Hf Hcg Hst Hc.
  pose proof (grid_num _ _ _ Hg) as Hn.
  destruct (mf_uniform Hf) as [Hals Hals'].
  assert (G : forall a b s s' , a = (Err RuntimeError, s) -> b = (Err RuntimeError, s') ->
    match (a : res result_ref * ll_state R), (b : res result_ref * ll_state R) with
    | (Ok _, s), (Ok _, s') =>
      exists r r' gam gam', l_results s = Some r /\ l_results s' = Some r' /\ mirrored_results r r' /\
        l_gamma s = Some gam /\ l_gamma s' = Some gam' /\ mirrored_circulation (g_sections g) gam gam'
    | (Err e, _), (Err e', _) => e' = e
    | _, _ => False
    end) by (intros; subst; reflexivity).
  assert (G' : forall a b : res result_ref * ll_state R, fst a = Err RuntimeError -> fst b = Err RuntimeError ->
    match a, b with
    | (Ok _, s), (Ok _, s') =>
      exists r r' gam gam', l_results s = Some r /\ l_results s' = Some r' /\ mirrored_results r r' /\
        l_gamma s = Some gam /\ l_gamma s' = Some gam' /\ mirrored_circulation (g_sections g) gam gam'
    | (Err e, _), (Err e', _) => e' = e
    | _, _ => False
    end).
  { intros [a s] [b s'] A B. cbn [fst] in A, B. subst. reflexivity. }
  clear G.
  destruct (dget (an d) "V_mag") as [V|] eqn:EV.
  2:{ apply G'; eapply call_solve_no_keys; eauto. left. rewrite (mf_V Hf). exact EV. }
  destruct (dget (an d) "rho") as [rho|] eqn:Er.
  2:{ apply G'; eapply call_solve_no_keys; eauto. right. rewrite (mf_rho Hf). exact Er. }
  pose proof (mf_V Hf) as EV'. rewrite EV in EV'. pose proof (mf_rho Hf) as Er'. rewrite Er in Er'.
  destruct (string_dec (k_stype k) "linear") as [Hl|Hl].
  2:{ apply G'; eapply call_solve_not_linear; eauto. congruence. }
  clear G'.
  fold (mirrored_solves g (call_solve ls g k (after ls g h)) (call_solve ls g k' (after ls g h'))).
  destruct (mirror_matched cosine pl g Hb Hg Hsym) as (sg & e & Hma).
  pose proof (ma_swaps _ _ _ Hma) as Hsw.
  set (f := freestream V (entry (an d) "alpha") (entry (an d) "beta")).
  eapply (mirrored_call ls g h h' k k' d d' sg e (repeat f (g_num g)) (repeat (mirror f) (g_num g)) (unit_of f)
            (repeat rho (g_num g)) (repeat rho (g_num g))); eauto; try congruence.
  - unfold base_flow. rewrite Hals, EV, Er. reflexivity.
  - unfold base_flow. rewrite Hals', EV', Er', (mf_alpha Hf), (mf_beta Hf), freestream_mirror, unit_mirror. reflexivity.
  - intros i Hi. pose proof (sw_lt _ _ Hsw i Hi) as Hj. rewrite !nth_error_repeat by lia. auto.
  - now apply rates_mirror.
Qed.
