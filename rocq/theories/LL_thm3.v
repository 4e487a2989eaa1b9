(** Lifting-line equation, section loads, omitted flow, result objects, stall (C22, C26, C27, C32, C61). *)
From Coq Require Import Reals ZArith String Bool Arith Lia Lra List.
From Verif Require Import Base Num RVec Geometry Api Grid LLModel Spec_Grid Spec_LL Spec_BS Grid_facts Grid_R Grid_thm Grid_props
  LL_state LL_R LL_solve LL_props BS_thm LL_thm LL_thm2.
Import ListNotations.
Local Open Scope R_scope.

(** *** C22, C61 *)
Lemma vsum_total {A} (f : A -> vec3 R) l : vsum (map f l) = vtotal f l.
Proof. symmetry. apply vtotal_vsum. Qed.

Lemma combine_mapi_from {A B} (f : nat -> A -> B) l : forall k,
  combine l (mapi_from f k l) = mapi_from (fun j y => (y, f j y)) k l.
Proof. induction l; simpl; intros; congruence. Qed.

Lemma operating_in_operation ls g cg c s' loads : operating ls g cg c s' loads ->
  vdot (l_uinf s') (l_uinf s') = 1 ->
  in_operation g (l_uinf s') (l_v s') (l_rho s') c (map ld_gamma loads) loads.
Proof.
  intros O Hu. constructor; try apply O; auto.
  intros i x Hx.
  exists (mapi (fun j y => induced (l_uinf s') (Nat.eqb i j) (ld_sec x) (ld_sec y)) loads). refine (conj _ (conj _ _)).
  - apply mapi_length.
  - rewrite (op_w _ _ _ _ _ _ O i x Hx). rewrite <- vsum_total. unfold mapi. rewrite combine_mapi_from.
    rewrite map_mapi_from. reflexivity.
  - intros j y w Hy Hw. rewrite mapi_nth, Hy in Hw. cbn [option_map] in Hw. injection Hw as <-.
    now apply induced_horseshoe.
Qed.

Lemma C22_lemma ls g h k r s' : exact_solver ls -> g_num g = List.length (g_sections g) ->
  call_solve ls g k (after ls g h) = (Ok r, s') -> vdot (l_uinf s') (l_uinf s') = 1 ->
  exists gam loads, l_gamma s' = Some gam /\
    in_operation g (l_uinf s') (l_v s') (l_rho s') (acting g h k) gam loads /\
    Forall lifting_line_equation loads.
Proof.
  intros He Hn H Hu. destruct (call_operating _ _ _ _ _ _ He Hn H) as (loads & O).
  exists (map ld_gamma loads), loads. refine (conj (op_gamma _ _ _ _ _ _ O) (conj _ (op_eq _ _ _ _ _ _ O))).
  eapply operating_in_operation; eauto.
Qed.

Lemma dist_rows_loads (secs : list (section R)) cg : forall (loads : list load),
  map ld_sec loads = secs ->
  let sols := map (sol_of cg) loads in
  dist_rows secs (map (@so_alpha R) sols) (map (@so_force R) sols) (map (@so_cl R) sols)
                        (map (@so_cm R) sols) (map (@so_cd R) sols)
  = map (fun x => MkDist (s_name (ld_sec x)) (s_r (ld_sec x)) (s_c (ld_sec x)) (s_mount (ld_sec x) - s_washout (ld_sec x))
                         (s_dihedral (ld_sec x)) (s_sweep (ld_sec x)) (s_dS (ld_sec x)) (ld_alpha x) (vortex_force x)
                         (ld_cl x) (ld_cm x) (ld_cd x) (tm (s_al0 (ld_sec x)))) loads.
Proof.
  induction secs as [|s secs IH]; intros [|x loads] H; try discriminate; cbv zeta; [reflexivity|].
  cbn [map] in H. injection H as <- H. specialize (IH loads H). cbv zeta in IH.
  cbn [map dist_rows]. rewrite IH. reflexivity.
Qed.

Lemma C61_lemma ls g h k r s' : exact_solver ls -> g_num g = List.length (g_sections g) ->
  call_solve ls g k (after ls g h) = (Ok r, s') -> vdot (l_uinf s') (l_uinf s') = 1 ->
  exists gam loads res, l_gamma s' = Some gam /\ l_results s' = Some res /\
    in_operation g (l_uinf s') (l_v s') (l_rho s') (acting g h k) gam loads /\
    force_of (r_inviscid res) = vtotal vortex_force loads /\
    moment_of (r_inviscid res) = vtotal (vortex_moment (k_cg k)) loads /\
    force_of (r_viscous res) = vtotal parasitic_force loads /\
    moment_of (r_viscous res) = vtotal (parasitic_moment (k_cg k)) loads /\
    ll_distributions g s' = Ok
      (map (fun x => let s := ld_sec x in
         MkDist (s_name s) (s_r s) (s_c s) (s_mount s - s_washout s) (s_dihedral s) (s_sweep s) (s_dS s)
                (ld_alpha x) (vortex_force x) (ld_cl x) (ld_cm x) (ld_cd x) (tm (s_al0 s))) loads).
Proof.
  intros He Hn H Hu. destruct (call_operating _ _ _ _ _ _ He Hn H) as (loads & O).
  pose proof (op_solved _ _ _ _ _ _ O) as [_ H2 H3 H4 H5 H6 H7 H8].
  rewrite (op_sols _ _ _ _ _ _ O) in *.
  exists (map ld_gamma loads), loads. eexists. split; [exact H2|]. split; [exact H3|].
  split; [eapply operating_in_operation; eauto|].
  unfold assemble. cbn [r_inviscid r_viscous].
  repeat match goal with |- context [make_fm ?u ?F ?M] =>
    let E1 := fresh in let E2 := fresh in destruct (make_fm_force u F M) as (E1 & E2 & _); rewrite ?E1, ?E2; clear E1 E2 end.
  rewrite !map_map. cbn [sol_of so_force so_moment so_par so_moment_par].
  rewrite !vsum_total. do 4 (split; [reflexivity|]).
  unfold ll_distributions. rewrite H4, H5, H6, H7, H8. f_equal. apply dist_rows_loads. apply (op_sec _ _ _ _ _ _ O).
Qed.

(** *** C26 *)
Section Omitted.
  Context {T : Type} {N : num_ops T}.
  Lemma omitted_falsy (a : option (aero_state T)) : omitted_aero a -> opt_truthy aero_truthy a = None.
  Proof. intros [-> | ->]; reflexivity. Qed.
  (** What the flow becomes when aero_state is omitted. *)
  Lemma omitted_flow ls (g : grid T) cg stype a c s r s' : omitted_aero a ->
    ll_solve ls g cg stype a c s = (Ok r, s') ->
    l_v s' = map (fun v => V3 (nint (-10)) (vy v) (vz v)) (l_v s) /\
    l_uinf s' = V3 (nint (-1)) (vy (l_uinf s)) (vz (l_uinf s)) /\ l_rho s' = l_rho s.
  Proof.
    intros Ha H. destruct (ll_solve_solved _ _ _ _ _ _ _ H) as (_ & s1 & s2 & gam & H1 & H2 & H3 & _).
    unfold process_aero in H1. rewrite (omitted_falsy _ Ha) in H1. unfold smod in H1. injection H1 as <-.
    destruct (process_control_flow _ _ _ H2) as (F1 & F2 & F3 & _). unfold inputs in H3.
    apply pair_equal_spec in H3; destruct H3 as [H3 _]. apply pair_equal_spec in H3; destruct H3 as [H3 _].
    apply pair_equal_spec in H3; destruct H3 as [H3 G3]. apply pair_equal_spec in H3; destruct H3 as [G1 G2].
    rewrite G1, G2, G3, F1, F2, F3. auto.
  Qed.
End Omitted.

Record clean_flow (s : ll_state R) : Prop := {
  cf_v : Forall (fun v => vy v = 0 /\ vz v = 0) (l_v s);
  cf_u : vy (l_uinf s) = 0 /\ vz (l_uinf s) = 0;
  cf_rho : Forall (fun x => x = 1) (l_rho s)
}.
Lemma map2_Forall {A B C} (P : C -> Prop) (f : A -> B -> C) : forall l l',
  Forall (fun a => forall b, P (f a b)) l -> Forall P (map2 f l l').
Proof. induction l; intros [|b l'] H; simpl; constructor; inversion H; subst; auto. Qed.

Lemma freestream_straight V : let v := freestream (T := R) V 0 0 in vy v = 0 /\ vz v = 0.
Proof.
  cbv zeta. unfold freestream. cbv zeta. assert (E : nrad (T := R) 0 = 0) by (rnum; unfold Rdiv; ring).
  rewrite E. cbn [vy vz]. rnum. rewrite sin_0. split; ring.
Qed.

Lemma process_aero_clean (g : grid R) cg a s : g_num g = List.length (g_sections g) -> head_on a ->
  clean_flow s -> clean_flow (snd (process_aero g cg a s)).
Proof.
  intros Hn Ha Hc. destruct Ha as [Ha|(d & -> & Hals & Hd)].
  - unfold process_aero. rewrite (omitted_falsy _ Ha). unfold smod. cbn [snd]. destruct Hc as [C1 C2 C3].
    constructor; cbn [set_flow l_v l_uinf l_rho]; auto. apply Forall_map.
    eapply Forall_impl; [|exact C1]. auto.
  - destruct (dtruthy (an d)) eqn:Et.
    + assert (Hg : given_aero (Some d)).
      { exists d. split; auto. left. intros K. rewrite K in Et. discriminate. }
      pose proof (process_aero_base g cg d s Hn Hg) as P.
      unfold base_flow in P. rewrite Hals in P.
      destruct (dget (an d) "V_mag") as [V|]; [|rewrite P; exact Hc].
      destruct (dget (an d) "rho") as [rho|]; [|rewrite P; exact Hc].
      destruct (Hd ltac:(congruence) ltac:(congruence)) as (Er & Ea & Eb & Ew). injection Er as ->.
      destruct P as (s' & -> & Ev & Eu & Erho & _). cbn [snd]. rewrite Ea, Eb in *.
      destruct (freestream_straight V) as [F1 F2].
      constructor.
      * rewrite Ev, Ew. apply map2_Forall. apply Forall_forall. intros v Hv b.
        apply repeat_spec in Hv. subst v. rewrite at_section_0. split; assumption.
      * rewrite Eu. unfold unit_of. rewrite vdivs_scale. cbn [vscale vy vz]. rnum. rewrite F1, F2. split; ring.
      * rewrite Erho. apply Forall_forall. intros x Hx. now apply repeat_spec in Hx.
    + unfold process_aero, opt_truthy, aero_truthy. rewrite Et, Hals. cbn [orb]. unfold smod. cbn [snd].
      destruct Hc as [C1 C2 C3]. constructor; cbn [set_flow l_v l_uinf l_rho]; auto. apply Forall_map.
      eapply Forall_impl; [|exact C1]. auto.
Qed.
Lemma call_clean ls (g : grid R) k s : g_num g = List.length (g_sections g) -> head_on (k_aero k) ->
  clean_flow s -> clean_flow (snd (call_solve ls g k s)).
Proof.
  intros Hn Ha Hc. pose proof (process_aero_clean g (k_cg k) _ s Hn Ha Hc) as H.
  unfold call_solve, ll_solve, sbind. destruct (process_aero g (k_cg k) (k_aero k) s) as [[[]|e] s1]; auto. cbn [snd] in H.
  destruct (process_control g (k_ctl k) s1) as [[[]|e] s2] eqn:E2.
  - destruct (process_control_flow _ _ _ E2) as (F1 & F2 & F3 & _).
    assert (H2 : clean_flow s2) by (destruct H; constructor; congruence).
    destruct (String.eqb (k_stype k) "linear"); [|exact H2].
    unfold linear_solve. destruct (ls _ _); [|exact H2].
    destruct H2. constructor; cbn [snd l_v l_uinf l_rho]; auto.
  - unfold process_control in E2. destruct (opt_truthy dtruthy (k_ctl k)); discriminate.
Qed.
Lemma after_clean ls (g : grid R) h : g_num g = List.length (g_sections g) ->
  Forall (fun k => head_on (k_aero k)) h -> clean_flow (after ls g h).
Proof.
  intros Hn. unfold after.
  assert (H0 : clean_flow (fresh g)).
  { constructor; cbn; auto.
    - apply Forall_forall. intros v Hv. apply repeat_spec in Hv. subst v. split; reflexivity.
    - apply Forall_forall. intros v Hv. now apply repeat_spec in Hv. }
  revert H0. generalize (fresh g). induction h as [|k h IH]; intros s H0 Hf; simpl; auto.
  inversion Hf; subst. apply IH; auto. now apply call_clean.
Qed.
Lemma Forall_eq_repeat {A} (x : A) l : Forall (fun y => y = x) l -> l = repeat x (List.length l).
Proof. induction 1; simpl; congruence. Qed.


Lemma freestream_10 : freestream (T := R) 10 0 0 = V3 (-10) 0 0.
Proof.
  unfold freestream. cbv zeta. assert (E : nrad (T := R) 0 = 0) by (rnum; unfold Rdiv; ring).
  rewrite E. rnum. rewrite sin_0, cos_0. replace (1 - 0 * 0 * 0 * 0) with 1 by ring. rewrite sqrt_1.
  apply vec_eq; cbn [vx vy vz]; field.
Qed.
Lemma C26_clean ls (g : grid R) h cg stype a c : g_num g = List.length (g_sections g) ->
  Forall (fun k => head_on (k_aero k)) h -> omitted_aero a ->
  let x := ll_solve ls g cg stype a c (after ls g h) in
  let y := ll_solve ls g cg stype (Some ten_head_on) c (after ls g h) in
  fst x = fst y /\ (forall r, fst x = Ok r -> observed g (snd x) = observed g (snd y)).
Proof.
  intros Hn Hh Ha. cbv zeta.
  pose proof (after_clean ls g h Hn Hh) as Hc. pose proof (after_sized ls g Hn h) as (Z1 & Z2 & _).
  set (s := after ls g h) in *. clearbody s.
  set (s1 := set_flow (map (fun v => V3 (nint (-10)) (vy v) (vz v)) (l_v s))
                   (V3 (nint (-1)) (vy (l_uinf s)) (vz (l_uinf s))) (l_rho s) s).
  assert (Hs1 : process_aero g cg a s = (Ok tt, s1)) by (unfold process_aero; rewrite (omitted_falsy _ Ha); reflexivity).
  unfold ll_solve, sbind. rewrite Hs1.
  assert (Hg : given_aero (Some ten_head_on)) by (exists ten_head_on; split; auto; left; discriminate).
  pose proof (process_aero_base g cg ten_head_on s Hn Hg) as P.
  change (base_flow (g_num g) ten_head_on) with
    (Ok (repeat (freestream 10 (entry (an ten_head_on) "alpha") (entry (an ten_head_on) "beta")) (g_num g),
         unit_of (freestream 10 (entry (an ten_head_on) "alpha") (entry (an ten_head_on) "beta")),
         repeat 1 (g_num g))) in P.
  change (entry (an ten_head_on) "alpha") with 0 in P. change (entry (an ten_head_on) "beta") with 0 in P.
  rewrite freestream_10 in P.
  destruct P as (s2 & -> & Ev & Eu & Er & Ed & Ee & L1 & L2).
  assert (Hv : l_v s1 = l_v s2).
  { rewrite Ev. change (body_rates (an ten_head_on)) with (V3 0 0 0 : vec3 R).
    rewrite map2_repeat by auto. cbn [s1 set_flow l_v].
    transitivity (repeat (V3 (-10) 0 0 : vec3 R) (List.length (l_v s))).
    - rewrite <- (map_length (fun v => V3 (nint (-10)) (vy v) (vz v)) (l_v s)). apply Forall_eq_repeat.
      apply Forall_map. eapply Forall_impl; [|exact (cf_v _ Hc)]. intros v [E1 E2]. cbn beta. rewrite E1, E2. reflexivity.
    - rewrite Z1. clear. induction (g_sections g) as [|x l IH]; simpl; auto. rewrite IH, at_section_0. reflexivity. }
  assert (Hu : l_uinf s1 = l_uinf s2).
  { rewrite Eu. cbn [s1 set_flow l_uinf]. destruct (cf_u _ Hc) as [-> ->]. unfold unit_of.
    replace (vnorm (V3 (-10) 0 0 : vec3 R)) with 10 by (symmetry; apply vnorm_eq; [lra|vunf; ring]).
    apply vec_eq; cbn [vdivs vx vy vz]; rnum; field. }
  assert (Hr : l_rho s1 = l_rho s2).
  { rewrite Er. cbn [s1 set_flow l_rho]. rewrite Hn, <- Z2. apply Forall_eq_repeat. exact (cf_rho _ Hc). }
  assert (Hdd : (l_delta s1, l_eff s1) = (l_delta s2, l_eff s2)) by (rewrite Ed, Ee; reflexivity).
  apply pair_equal_spec in Hdd. destruct Hdd as [Hd He'].
  assert (Hp : exists t1 t2, process_control g c s1 = (Ok tt, t1) /\ process_control g c s2 = (Ok tt, t2) /\ inputs t1 = inputs t2).
  { unfold process_control. destruct (opt_truthy dtruthy c) as [d|]; unfold smod, sret; do 2 eexists;
      (split; [reflexivity|split; [reflexivity|]]); unfold inputs; cbn [set_control l_v l_uinf l_rho l_delta l_eff]; congruence. }
  destruct Hp as (t1 & t2 & -> & -> & Ht).
  destruct (String.eqb stype "linear").
  - destruct (linear_solve_inputs ls g cg Ht) as (A & B & _). split; auto.
    intros r Hr'. destruct r. apply observed_outputs. auto.
  - unfold sraise. cbn [fst]. split; [reflexivity|]. intros; discriminate.
Qed.

(** *** C27 *)
Lemma C27_lemma {T} {N : num_ops T} ls (g : grid T) h k1 k2 r1 s1 r2 s2 :
  call_solve ls g k1 (after ls g h) = (Ok r1, s1) ->
  call_solve ls g k2 s1 = (Ok r2, s2) ->
  r1 = r2 /\ exists res2, l_results s2 = Some res2 /\ read_ref s2 r1 = Some res2.
Proof.
  intros H1 H2. destruct r1, r2. split; auto.
  destruct (ll_solve_solved _ _ _ _ _ _ _ H2) as (_ & _ & _ & gam & _ & _ & _ & Hs).
  eexists. split; [exact (sv_results Hs)|]. exact (sv_results Hs).
Qed.

(** *** C32 *)
Lemma first_stalled_none (secs : list (section R)) : forall cl, List.length cl = List.length secs ->
  (first_stalled secs cl = None <->
   forall i s c, nth_error secs i = Some s -> nth_error cl i = Some c -> c <= tm (s_clmax s)).
Proof.
  induction secs as [|s secs IH]; intros [|c cl] H; try discriminate; cbn [first_stalled].
  - split; auto. intros _ [|i]; discriminate.
  - unfold ngtb. change (nltb (T := R)) with Rltb. destruct (Rltb (tm (s_clmax s)) c) eqn:E.
    + apply Rltb_true in E. split; [discriminate|]. intros K. specialize (K 0%nat s c eq_refl eq_refl). lra.
    + apply Rltb_false in E. rewrite IH by (simpl in H; lia). split.
      * intros K [|i] s0 c0 H1 H2; simpl in H1, H2; [injection H1 as <-; injection H2 as <-; auto|eauto].
      * intros K i s0 c0 H1 H2. apply (K (S i) s0 c0 H1 H2).
Qed.
Lemma first_stalled_some (secs : list (section R)) : forall cl name f,
  first_stalled secs cl = Some (name, f) ->
  exists i s c, nth_error secs i = Some s /\ nth_error cl i = Some c /\ tm (s_clmax s) < c /\
    (forall j s' c', (j < i)%nat -> nth_error secs j = Some s' -> nth_error cl j = Some c' -> c' <= tm (s_clmax s')) /\
    name = s_name s /\ f = (if String.eqb (substring 0 5 name) "right" then s_sp s else 1 - s_sp s).
Proof.
  induction secs as [|s secs IH]; intros [|c cl] name f H; try discriminate; cbn [first_stalled] in H.
  unfold ngtb in H. change (nltb (T := R)) with Rltb in H. destruct (Rltb (tm (s_clmax s)) c) eqn:E.
  - apply Rltb_true in E. injection H as <- <-. exists 0%nat, s, c. repeat split; auto. intros; lia.
  - apply Rltb_false in E. destruct (IH cl name f H) as (i & s0 & c0 & H1 & H2 & H3 & H4 & H5 & H6).
    exists (S i), s0, c0. repeat split; auto. intros [|j] s' c' Hj K1 K2; simpl in K1, K2.
    + injection K1 as <-. injection K2 as <-. auto.
    + apply (H4 j s' c'); auto; lia.
Qed.

Lemma segment_side_name (pl : airplane R) sg : built pl -> In sg (wingsegments pl) ->
  String.eqb (substring 0 5 (sg_name sg)) "right" = match sg_side sg with SRight => true | SLeft => false end.
Proof.
  intros Hb Hs. pose proof (built_wings_ok Hb) as Hw. rewrite Forall_forall in Hw.
  unfold wingsegments in Hs. apply in_flat_map in Hs. destruct Hs as (w & Hin & Hs).
  unfold lookup_wings in Hin. apply in_flat_map in Hin. destruct Hin as ([nm id] & _ & Hin).
  cbn [snd] in Hin. destruct (nth_error (a_store pl) id) as [w'|] eqn:E; [|contradiction].
  destruct Hin as [<-|[]]. apply nth_error_In in E. specialize (Hw _ E). unfold wing_ok in Hw. unfold wing_segments in Hs.
  destruct (w_side w').
  - destruct Hw as (l & r & El & Er & Hr & Hnl & Hnr & Htw & _). rewrite El, Er in Hs.
    destruct Hs as [<-|[<-|[]]].
    + rewrite Hnl. replace (sg_side l) with SLeft by (rewrite Htw; reflexivity). reflexivity.
    + rewrite Hnr, Hr. simpl. destruct (w_name w'); reflexivity.
  - destruct Hw as (El & r & Er & Hr & Hnr). rewrite Er in Hs. rewrite ?El in Hs. simpl in Hs.
    destruct Hs as [<-|[]]. rewrite Hnr, Hr. simpl. destruct (w_name w'); reflexivity.
  - destruct Hw as (El & r & Er & Hr & Hnr). rewrite Er in Hs. rewrite ?El in Hs. simpl in Hs.
    destruct Hs as [<-|[]]. rewrite Hnr, Hr. simpl. reflexivity.
Qed.

Lemma C32_lemma ls cosine (pl : airplane R) g h k r s' : exact_solver ls -> built pl -> make_grid cosine pl = Ok g ->
  call_solve ls g k (after ls g h) = (Ok r, s') ->
  exists rows report, ll_distributions g s' = Ok rows /\ find_stall_location g s' = Ok report /\
    List.length rows = List.length (g_sections g) /\
    (report <> None <-> exists i s row, nth_error (g_sections g) i = Some s /\ nth_error rows i = Some row /\
                          tm (s_clmax s) < d_cl row) /\
    (forall name f, report = Some (name, f) ->
       exists i s row sg, nth_error (g_sections g) i = Some s /\ nth_error rows i = Some row /\
         tm (s_clmax s) < d_cl row /\
         (forall j s' row', (j < i)%nat -> nth_error (g_sections g) j = Some s' -> nth_error rows j = Some row' ->
            d_cl row' <= tm (s_clmax s')) /\
         In sg (wingsegments pl) /\ name = sg_name sg /\ name = d_name row /\
         f = from_root (sg_side sg) (s_sp s) /\ 0 < f < 1).
Proof.
  intros He Hb Hg H. pose proof (grid_num _ _ _ Hg) as Hn.
  destruct (call_operating _ _ _ _ _ _ He Hn H) as (loads & O).
  pose proof (op_solved _ _ _ _ _ _ O) as [_ _ _ H4 H5 H6 H7 H8].
  rewrite (op_sols _ _ _ _ _ _ O) in *.
  pose proof (dist_rows_loads (g_sections g) (k_cg k) loads (op_sec _ _ _ _ _ _ O)) as D. cbv zeta in D.
  set (mk := fun x : load => MkDist _ _ _ _ _ _ _ _ _ _ _ _ _) in D.
  exists (map mk loads), (first_stalled (g_sections g) (map ld_cl loads)).
  rewrite map_map in H6. cbn [sol_of so_cl] in H6.
  assert (Hlen : List.length loads = List.length (g_sections g)) by (rewrite <- (op_sec _ _ _ _ _ _ O), map_length; reflexivity).
  assert (Hrow : forall i row, nth_error (map mk loads) i = Some row -> nth_error (map ld_cl loads) i = Some (d_cl row) /\
                    exists x, nth_error loads i = Some x /\ row = mk x).
  { intros i row Hr. rewrite nth_error_map in *. destruct (nth_error loads i) as [x|]; [|discriminate].
    cbn [option_map] in *. injection Hr as <-. split; [reflexivity|eauto]. }
  assert (Hrow' : forall i c, nth_error (map ld_cl loads) i = Some c -> exists row, nth_error (map mk loads) i = Some row /\ c = d_cl row).
  { intros i c Hc. rewrite nth_error_map in *. destruct (nth_error loads i) as [x|]; [|discriminate].
    cbn [option_map] in *. injection Hc as <-. eexists; split; reflexivity. }
  refine (conj _ (conj _ (conj _ (conj _ _)))).
  - unfold ll_distributions. rewrite H4, H5, H6, H7, H8. f_equal. rewrite <- D. rewrite !map_map. reflexivity.
  - unfold find_stall_location. rewrite H6. reflexivity.
  - rewrite map_length. exact Hlen.
  - pose proof (first_stalled_none (g_sections g) (map ld_cl loads)) as F. rewrite map_length in F. specialize (F Hlen). split.
    + intros K. destruct (first_stalled (g_sections g) (map ld_cl loads)) as [[name f]|] eqn:E; [|congruence].
      destruct (first_stalled_some _ _ _ _ E) as (i & s & c & A & B & C & _).
      destruct (Hrow' _ _ B) as (row & Hr & ->). exists i, s, row. auto.
    + intros (i & s & row & A & B & C) K. destruct (Hrow _ _ B) as [B' _].
      pose proof (proj1 F K i s _ A B') as L. lra.
  - intros name f E. destruct (first_stalled_some _ _ _ _ E) as (i & s & c & A & B & C & D' & E1 & E2).
    destruct (Hrow' _ _ B) as (row & Hr & ->).
    pose proof (nth_error_In _ _ A) as Hin. destruct (in_some_block _ _ _ _ Hg Hin) as (m & sg & Hsg & Hblk).
    destruct (block_section _ _ _ _ _ _ Hg Hsg Hblk) as (L & R' & j & Hj & Es & _).
    assert (Hname : s_name s = sg_name sg).
    { rewrite Es. change (s_name (set_ic2 ?x)) with (s_name x). apply make_section_name. }
    assert (Hsp : 0 < s_sp s < 1).
    { rewrite Es. change (s_sp (set_ic2 ?x)) with (s_sp x). rewrite ms_sp.
      destruct (sp_order cosine (sg_num sg) j Hj) as (P1 & P2 & P3 & P4). lra. }
    assert (Hrn : d_name row = s_name s).
    { destruct (Hrow _ _ Hr) as [_ (x & Hx & ->)]. cbn [mk d_name].
      pose proof (map_nth_error ld_sec _ _ Hx) as Hm. rewrite (op_sec _ _ _ _ _ _ O), A in Hm. congruence. }
    exists i, s, row, sg. refine (conj A (conj Hr (conj C (conj _ (conj (nth_error_In _ _ Hsg) (conj _ (conj _ (conj _ _)))))))).
    + intros j0 s0 row0 Hj0 Hs0 Hr0. destruct (Hrow _ _ Hr0) as [B0 _]. exact (D' j0 s0 _ Hj0 Hs0 B0).
    + congruence.
    + congruence.
    + rewrite E2, E1, Hname, (segment_side_name _ _ Hb (nth_error_In _ _ Hsg)). unfold from_root.
      destruct (sg_side sg); reflexivity.
    + rewrite E2. destruct (String.eqb _ _); lra.
Qed.

(** *** C25: no deflection supplied yet = zero deflections *)
Section Eff.
  Variables (ls : linear_solver (T := R)) (g : grid R) (cg : vec3 R).
  Lemma cells_eff (secs : list (section R)) : forall v rho d e e',
    map2 Rmult e d = map2 Rmult e' d -> List.length e = List.length d -> List.length e' = List.length d ->
    map (@c_sec R) (cells_of secs v rho d e) = map (@c_sec R) (cells_of secs v rho d e') /\
    Forall2 (fun c c' => c_sec c' = c_sec c /\ c_v c' = c_v c /\ c_rho c' = c_rho c /\ c_delta c' = c_delta c /\
                         c_eff c' * c_delta c' = c_eff c * c_delta c)
            (cells_of secs v rho d e) (cells_of secs v rho d e').
  Proof.
    induction secs as [|s secs IH]; intros v rho d e e' H L1 L2; [split; constructor|].
    destruct v as [|v0 v]; [split; constructor|]. destruct rho as [|r0 rho]; [split; constructor|].
    destruct d as [|d0 d]; [split; constructor|]. destruct e as [|e0 e]; [discriminate|]. destruct e' as [|e0' e']; [discriminate|].
    cbn [map2] in H. injection H as H0 H. cbn [List.length] in *.
    destruct (IH v rho d e e' H) as [A B]; try lia. cbn [cells_of map c_sec]. split; [now rewrite A|].
    constructor; auto.
  Qed.
  Lemma Forall2_mapi_from {A B C} (P : A -> B -> Prop) (f : nat -> A -> C) (f' : nat -> B -> C) l l' :
    (forall i a b, P a b -> f i a = f' i b) -> Forall2 P l l' -> forall k, mapi_from f k l = mapi_from f' k l'.
  Proof. intros H. induction 1; intros k; simpl; auto. erewrite H, IHForall2; eauto. Qed.
  Lemma Forall2_map_eq {A B C} (P : A -> B -> Prop) (f : A -> C) (f' : B -> C) l l' :
    (forall a b, P a b -> f a = f' b) -> Forall2 P l l' -> map f l = map f' l'.
  Proof. intros H. induction 1; simpl; auto. erewrite H, IHForall2; eauto. Qed.
  Lemma linear_solve_eff s s' : l_v s' = l_v s -> l_uinf s' = l_uinf s -> l_rho s' = l_rho s -> l_delta s' = l_delta s ->
    map2 Rmult (l_eff s) (l_delta s) = map2 Rmult (l_eff s') (l_delta s) ->
    List.length (l_eff s) = List.length (l_delta s) -> List.length (l_eff s') = List.length (l_delta s) ->
    let x := linear_solve ls g cg s in let y := linear_solve ls g cg s' in
    fst x = fst y /\ (forall r, fst x = Ok r -> outputs (snd x) = outputs (snd y)).
  Proof.
    intros Ev Eu Er Ed Ee L1 L2. cbv zeta. unfold linear_solve.
    destruct (cells_eff (g_sections g) (l_v s) (l_rho s) (l_delta s) (l_eff s) (l_eff s') Ee L1 L2) as [_ F].
    unfold cells. rewrite Ev, Eu, Er, Ed. set (cs := cells_of _ _ _ _ (l_eff s)) in *. set (cs' := cells_of _ _ _ _ (l_eff s')) in *.
    clearbody cs cs'. clear -F.
    assert (A : a_matrix (l_uinf s) cs = a_matrix (l_uinf s) cs').
    { unfold a_matrix, mapi. eapply Forall2_mapi_from; [|exact F]. intros i a b (P1 & P2 & P3 & P4 & P5).
      eapply Forall2_mapi_from; [|exact F]. intros j a' b' (Q1 & Q2 & Q3 & Q4 & Q5). unfold a_entry. rewrite P1, P2, Q1. reflexivity. }
    assert (B : map b_entry cs = map b_entry cs').
    { eapply Forall2_map_eq; [|exact F]. intros a b (P1 & P2 & P3 & P4 & P5). rewrite !b_entry_spec. unfold eff_flap.
      rewrite P1, P2. rnum. rewrite !Rmult_assoc, P5. reflexivity. }
    rewrite A, B. destruct (ls _ _) as [gam|]; cbn [fst snd]; [|split; auto; intros; discriminate].
    split; auto. intros _ _.
    assert (C : forall i c c', c_sec c' = c_sec c -> c_v c' = c_v c -> total_velocity (l_uinf s) cs gam i c = total_velocity (l_uinf s) cs' gam i c').
    { intros i c c' E1 E2. unfold total_velocity. rewrite E1, E2. do 3 f_equal. unfold mapi. eapply Forall2_mapi_from; [|exact F].
      intros j a' b' (Q1 & _). now rewrite Q1. }
    assert (D : solve_cells (l_uinf s) cg cs gam = solve_cells (l_uinf s) cg cs' gam).
    { unfold solve_cells. generalize gam at 2 4. generalize 0%nat.
      assert (G : forall l l' k gs, Forall2 (fun c c' : cell R => c_sec c' = c_sec c /\ c_v c' = c_v c /\ c_rho c' = c_rho c /\ c_delta c' = c_delta c /\
                         c_eff c' * c_delta c' = c_eff c * c_delta c) l l' ->
          solve_cells_from (l_uinf s) cg cs gam k l gs = solve_cells_from (l_uinf s) cg cs' gam k l' gs).
      { induction l as [|c l IH]; intros l' k gs Hf; inversion Hf as [|? c' ? l2 (P1 & P2 & P3 & P4 & P5) Hf']; subst; auto.
        destruct gs as [|y gs]; auto. cbn [solve_cells_from]. rewrite (IH l2) by auto. f_equal.
        rewrite (C k c c' P1 P2). unfold solve_cell. rewrite P1, P2, P3, P4. reflexivity. }
      intros k gs. now apply G. }
    unfold outputs. cbn [l_results l_gamma l_alphas l_forces l_cl l_cd l_cm]. rewrite D. reflexivity.
  Qed.
End Eff.



Lemma C25_none_lemma ls (g : grid R) h cg stype a c c0 : g_num g = List.length (g_sections g) ->
  control_in_force (g_num g) None h = None -> omitted_control c -> zero_controls c0 ->
  let x := ll_solve ls g cg stype a c (after ls g h) in
  let y := ll_solve ls g cg stype a (Some c0) (after ls g h) in
  fst x = fst y /\ (forall r, fst x = Ok r -> observed g (snd x) = observed g (snd y)).
Proof.
  intros Hn Hf Hc (Hne & Z1 & Z2 & Z3 & Z4). cbv zeta. destruct (no_control_yet ls g h Hf) as [Ed Ee].
  set (s := after ls g h) in *. clearbody s. unfold ll_solve, sbind.
  destruct (usable_flowb (g_num g) a) eqn:Eu.
  2:{ destruct (process_aero_err g cg a s Eu) as (e & -> & _). split; [reflexivity|]. intros r K. discriminate K. }
  destruct (process_aero_ok g cg a s Eu) as (s1 & -> & E1 & E2 & _).
  rewrite (process_control_absent g s1 Hc).
  assert (Hg : given_control (Some c0)) by (exists c0; auto).
  destruct (process_control_given g s1 Hg) as (d & E & ->). injection E as <-.
  destruct (String.eqb stype "linear"); [|split; [reflexivity|intros r K; discriminate K]].
  assert (Hd : map (section_delta c0) (g_sections g) = repeat 0 (g_num g)).
  { rewrite Hn. clear -Z1 Z2 Z3 Z4. induction (g_sections g) as [|x l IH]; cbn [map repeat List.length]; auto. rewrite IH. f_equal.
    rewrite section_delta_spec. unfold commanded. rewrite Z1, Z2, Z3, Z4.
    replace (0 * s_mix_a x + 0 * s_mix_e x + 0 * s_mix_r x + 0 * s_mix_f x) with 0 by ring. apply degrees_0. }
  change (n0 (T := R)) with 0 in Ed, Ee.
  assert (Hz : forall n (l : list R), List.length l = n -> map2 Rmult l (repeat 0 n) = repeat 0 n).
  { clear. induction n; intros [|x l] H; simpl in *; try discriminate; auto. rewrite IHn by lia. f_equal. ring. }
  cbv zeta. rewrite Hd.
  edestruct (linear_solve_eff ls g cg s1 (set_control (repeat 0 (g_num g)) (map deflection_eff (repeat 0 (g_num g))) s1)) as [A B];
    cbn [set_control l_v l_uinf l_rho l_delta l_eff]; auto.
  - now rewrite E1, Ed.
  - rewrite E1, E2, Ed, Ee. rewrite !Hz; auto; rewrite ?map_length; apply repeat_length.
  - now rewrite E1, E2, Ed, Ee.
  - rewrite E1, Ed, map_length. reflexivity.
  - split; [exact A|]. intros r K. apply observed_outputs. exact (B r K).
Qed.
