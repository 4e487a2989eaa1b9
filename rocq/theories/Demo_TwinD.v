(** Examples for the derivatives of airplanes with propellers: the blade analysis of a blade with
    fewer than three stations always ends, and so the twin-engined flyer solves in every moderate flow. *)
From Coq Require Import Reals ZArith String Bool Arith Lia Lra List Permutation.
From Verif Require Import Base Num RVec Geometry Api Grid LLModel PropModel Spec_Grid Spec_Geom Spec_LL Spec_Prop MU Spec_MU
  LL_state LL_R LL_solve LL_props LL_thm Linalg Linalg2 Demo Demo_LL MU_thm MU_thm3 MU_thm4 MU_thm5 MU_thm6 MU_thm7 MU_thm8 MU_thm14 MU_thm15
  Prop_thm Prop_thm2 Prop_thm4 Prop_thm5 Prop_thm6 Demo_MU
  Spec_Mirror MU_mirror Demo_Mirror Spec_MirrorProp Prop_mirror MU_mirror2 MU_order3 Spec_Blade Demo_Blade Demo_Twin Prop_twin Spec_Twin MU_twin Prop_few.
Import ListNotations.
Local Open Scope string_scope.

(** *** Derivatives return when the solves around the given state do *)
Section Runs3.
  Context {T : Type} {N : num_ops T} {S : Type}.
  Variable H : host T S.
  Notation W := (world T S).
  Variable inv : S -> Prop.
  Variable ok : dict T -> Prop.                             (* the states in which values are read *)
  Variable near : string -> T -> Prop.                      (* values read *)
  Variable wide : dict T -> Prop.                           (* the states solved *)
  Hypothesis wide_given : forall a, wide a -> a <> [].
  Hypothesis ok_wide : forall a, ok a -> wide a.
  Hypothesis ok_get : forall a k, ok a -> In k ["alpha"; "beta"; "roll_rate"; "pitch_rate"; "yaw_rate"] -> near k (dgetd a k n0).
  Hypothesis ok_set : forall a k x, ok a -> near k x -> ok (dset a k x).
  Hypothesis rates_alike : forall x, near "pitch_rate" x -> near "yaw_rate" x.
  Variable r : refs T.
  Hypothesis has_refs : h_refs H = Some r.
  Variable V : T.
  Hypothesis ok_V : forall a, ok a -> dgetd a "V_mag" (nint 10) = V.
  Definition reach3 (k : string) (d : T) : Prop :=
    forall a x, ok a -> near k x -> wide (dset a k (nsub x d)) /\ wide (dset a k (nadd x d)).
  Hypothesis reach_alpha : reach3 "alpha" (ndec 5 1).
  Hypothesis reach_beta : reach3 "beta" (ndec 5 1).
  Hypothesis reach_roll : reach3 "roll_rate" (ndiv (nmul (nmul (ndec 5 3) n2) V) (r_lat r)).
  Hypothesis reach_pitch : reach3 "pitch_rate" (ndiv (nmul (nmul (ndec 5 3) n2) V) (r_long r)).
  Hypothesis reach_yaw : reach3 "yaw_rate" (ndiv (nmul (nmul (ndec 5 3) n2) V) (r_lat r)).
  Hypothesis total : forall a (c : dict T) s, wide (an a) -> c <> [] -> inv s ->
    exists f a' s', h_solve H a (Some c) s = (Ok f, a', s') /\ an a' = an a /\ inv s'.

  Definition good3 (w : W) : Prop :=
    (exists a, w_aero w = Some a /\ ok (an a)) /\ (exists c : dict T, w_ctl w = Some c /\ c <> []) /\ inv (w_model w).
  Definition runs3 {A} (m : st W A) : Prop := forall w, good3 w -> exists x w', m w = (Ok x, w') /\ good3 w'.
  Lemma runs3_ret {A} (x : A) : runs3 (sret x).
  Proof. intros w Hw. exists x, w. auto. Qed.
  Lemma runs3_bind {A B} (m : st W A) (f : A -> st W B) : runs3 m -> (forall x, runs3 (f x)) -> runs3 (sbind m f).
  Proof.
    intros Hm Hf w Hw. destruct (Hm w Hw) as (x & w1 & K1 & G1). destruct (Hf x w1 G1) as (y & w2 & K2 & G2).
    exists y, w2. unfold sbind. now rewrite K1.
  Qed.
  Lemma runs3_refs {A} (f : refs T -> st W A) : runs3 (f r) -> runs3 (sbind (need_refs H) f).
  Proof. intros Hf w Hw. unfold sbind, need_refs. rewrite has_refs. now apply Hf. Qed.
  Lemma runs3_get {A} k (f : T -> st W A) : In k ["alpha"; "beta"; "roll_rate"; "pitch_rate"; "yaw_rate"] ->
    (forall y, near k y -> runs3 (f y)) -> runs3 (sbind (get_aero k n0) f).
  Proof.
    intros Hk Hf w Hw. unfold sbind, get_aero. pose proof Hw as [(a & Ea & Oa) _]. rewrite Ea. apply Hf; auto.
  Qed.
  Lemma runs3_any k x : runs3 (get_aero k x).
  Proof. intros w Hw. pose proof Hw as [(a & Ea & _) _]. exists (dgetd (an a) k x), w. unfold get_aero. now rewrite Ea. Qed.
  Lemma runs3_V {A} (f : T -> st W A) : runs3 (f V) -> runs3 (sbind (get_aero "V_mag" (nint 10)) f).
  Proof.
    intros Hf w Hw. unfold sbind, get_aero. pose proof Hw as [(a & Ea & Oa) _]. rewrite Ea, (ok_V (an a) Oa). now apply Hf.
  Qed.
  Lemma given_dict (a : aero_state T) : an a <> [] -> given a.
  Proof. now left. Qed.
  Lemma solve_wide3 w a (c : dict T) : w_aero w = Some a -> wide (an a) -> w_ctl w = Some c -> c <> [] -> inv (w_model w) ->
    exists f w' a', do_solve H w = (Ok f, w') /\ w_aero w' = Some a' /\ an a' = an a /\ w_ctl w' = Some c /\ inv (w_model w').
  Proof.
    intros Ea Oa Ec Hc Hi. unfold do_solve. rewrite (aero_given_some w a Ea (given_dict a (wide_given _ Oa))). unfold raw_solve. rewrite Ea.
    destruct (total a c (w_model w) Oa Hc Hi) as (f & a' & s' & K & A & I). rewrite <- Ec in K. rewrite K. eexists f, _, a'. split; [reflexivity|]. auto.
  Qed.
  Lemma set_eq3 k x (w : W) a : w_aero w = Some a ->
    exists w', set_aero k x w = (Ok tt, w') /\ w_aero w' = Some (MkAero (dset (an a) k x) (als a)) /\ w_ctl w' = w_ctl w /\ w_model w' = w_model w.
  Proof. intros Ea. eexists. split; [reflexivity|]. cbn [put_aero w_aero w_ctl w_model]. rewrite Ea. split; [reflexivity|split; reflexivity]. Qed.
  Lemma runs3_around {A} k k' x0 d (f : fm T * fm T -> st W A) : reach3 k d -> near k x0 ->
    (forall a, ok a -> ok (dset a k k')) -> (forall q, runs3 (f q)) ->
    runs3 (sbind (around_aero H k x0 d) (fun q => sbind (set_aero k k') (fun _ => f q))).
  Proof.
    intros Hr Hn Hk Hf w [(a & Ea & Oa) [(c & Ec & Hc) Hi]]. destruct (Hr (an a) x0 Oa Hn) as [R1 R2].
    destruct (set_eq3 k (nsub x0 d) w a Ea) as (w1 & K1 & A1 & C1 & I1).
    destruct (solve_wide3 w1 _ c A1 R1 ltac:(congruence) Hc ltac:(congruence)) as (b & w2 & a2 & K2 & A2 & B2 & C2 & I2). cbn [an] in B2.
    destruct (set_eq3 k (nadd x0 d) w2 _ A2) as (w3 & K3 & A3 & C3 & I3). rewrite B2, twice in A3.
    destruct (solve_wide3 w3 _ c A3 R2 ltac:(congruence) Hc ltac:(congruence)) as (g & w4 & a4 & K4 & A4 & B4 & C4 & I4). cbn [an] in B4.
    destruct (set_eq3 k k' w4 _ A4) as (w5 & K5 & A5 & C5 & I5). rewrite B4, twice in A5.
    destruct (Hf (g, b) w5) as (y & w6 & K6 & G6).
    { split; [eexists; split; [exact A5|now apply Hk]|]. split; [exists c; split; congruence|congruence]. }
    exists y, w6. split; [|exact G6]. unfold sbind, around_aero, sret. unfold sbind. rewrite K1, K2, K3, K4, K5. exact K6.
  Qed.
  Lemma runs3_solve : runs3 (do_solve H).
  Proof.
    intros w [(a & Ea & Oa) [(c & Ec & Hc) Hi]]. destruct (solve_wide3 w a c Ea (ok_wide _ Oa) Ec Hc Hi) as (f & w' & a' & K & A1 & B1 & C1 & I1).
    exists f, w'. split; [exact K|]. split; [|split; eauto]. exists a'. split; [exact A1|]. now rewrite B1.
  Qed.
  Lemma runs3_set_ctl k x : runs3 (set_ctl k x).
  Proof.
    intros w [(a & Ea & Oa) [(c & Ec & Hc) Hi]]. exists tt. eexists. split; [reflexivity|].
    split; [exists a; split; [exact Ea|exact Oa]|]. split; [|exact Hi]. cbn [put_ctl w_ctl]. rewrite Ec. eexists. split; [reflexivity|]. apply dset_nil.
  Qed.
  Lemma runs3_get_ctl k x : runs3 (get_ctl k x).
  Proof. intros w Hw. pose proof Hw as [_ [(c & Ec & _) _]]. exists (dgetd c k x), w. unfold get_ctl. now rewrite Ec. Qed.
  Lemma runs3_pressure {A} (f : T -> st W A) : (forall x, runs3 (f x)) -> runs3 (sbind (dynamic_pressure_area H) f).
  Proof.
    intros Hf. apply runs3_bind; auto. unfold dynamic_pressure_area. apply runs3_bind; [apply runs3_any|intros x].
    apply runs3_bind; [apply runs3_any|intros y]. apply runs3_refs, runs3_ret.
  Qed.
  Lemma runs3_stability : runs3 (stability_derivatives H).
  Proof.
    intros w Hw. unfold stability_derivatives. pose proof Hw as [(a & Ea & Oa) _].
    rewrite (aero_given_some w a Ea (given_dict a (wide_given _ (ok_wide _ Oa)))). revert w Hw Ea. intros w Hw _. revert w Hw.
    change (runs3 (stability_body H)). unfold stability_body.
    apply runs3_pressure. intros DP. apply runs3_refs. cbv zeta.
    apply runs3_get; [cbn; tauto|]. intros a0 Ha0. apply runs3_around; auto. intros q.
    apply runs3_get; [cbn; tauto|]. intros b0 Hb0. apply runs3_around; auto. intros q'. apply runs3_ret.
  Qed.
  Lemma runs3_damping : runs3 (damping_derivatives H).
  Proof.
    intros w Hw. unfold damping_derivatives. pose proof Hw as [(a & Ea & Oa) _].
    rewrite (aero_given_some w a Ea (given_dict a (wide_given _ (ok_wide _ Oa)))). revert w Hw Ea. intros w Hw _. revert w Hw.
    change (runs3 (damping_body H)). unfold damping_body.
    apply runs3_V. apply runs3_bind; [apply runs3_any|intros rho]. apply runs3_refs. cbv zeta.
    apply runs3_get; [cbn; tauto|]. intros p0 Hp0. apply runs3_around; auto. intros q.
    apply runs3_get; [cbn; tauto|]. intros q0 Hq0. apply runs3_around; auto. intros q'.
    apply runs3_get; [cbn; tauto|]. intros r0 Hr0. apply runs3_around; auto. intros q''. apply runs3_ret.
  Qed.
  Lemma runs3_control : runs3 (control_derivatives H).
  Proof.
    intros w Hw. unfold control_derivatives. pose proof Hw as [_ [(c & Ec & Hc) _]].
    assert (E : ctl_given w = true) by (unfold ctl_given; rewrite Ec; destruct c; [congruence|reflexivity]). rewrite E. clear E Ec Hc c.
    revert w Hw. change (runs3 (control_body H)). unfold control_body, around_ctl.
    apply runs3_pressure. intros DP. apply runs3_refs. cbv zeta.
    repeat first [apply runs3_bind; [|intros ?] | apply runs3_ret | apply runs3_get_ctl | apply runs3_set_ctl | apply runs3_solve].
  Qed.
End Runs3.

Local Open Scope R_scope.

(** *** One engine in any moderate flow, from any state *)
Definition fair (d : dict R) : Prop :=
  dget d "V_mag" = Some 10 /\ dget d "rho" = Some 1 /\
  Rabs (entry d "alpha") < 60 /\ Rabs (entry d "beta") < 60 /\ Rabs (entry d "yaw_rate") <= 1.
Lemma fair_given d : fair d -> d <> [].
Proof. intros (K & _) Q. now rewrite Q in K. Qed.
Definition fair_env : penv R := MkPE (fun _ => Err KeyError) trapezoid (fun _ _ _ => 0) 60.
Definition fair_menv : menv R := MkME gauss_solver fair_env gauss_inv (fun x => x) 100.

Lemma engine_total cg a g s u wp name y turns : fair (an a) -> name <> "J" ->
  make_pgeom fair_env u wp (engine name y turns) = Ok g ->
  exists q s', run_prop fair_env cg (Some a) half_J g s = (Ok q, s').
Proof.
  intros Ha Hn Hg. pose proof (fair_given _ Ha) as Na. destruct Ha as (A2 & A3 & A4 & A5 & _).
  destruct (engine_make fair_env u wp name y turns) as (g' & Hg' & Hl & _).
  assert (Hlg : List.length (pg_stations g) = 2%nat) by congruence.
  destruct (make_pgeom_data _ _ _ _ _ Hg) as (E1 & E2 & E3 & E4 & E5 & E6 & _).
  cbn [engine pr_name pr_diameter] in E3, E5.
  rewrite run_prop_blades. unfold sbind. rewrite (set_aero_given a s Na), A2, A3.
  set (v := freestream n1 _ _). set (s1 := set_flow_p v 1 10 s).
  assert (B : exists s2, blades fair_env g (local_state half_J (pg_name g)) s1 = (Ok tt, s2)).
  { unfold blades, sbind. rewrite E5, E3. unfold half_J. rewrite (set_by_J 1 (/ 2) 10 name) by (try lra; auto).
    cbv beta iota delta [sget]. cbn [p_power p_throttle set_op].
    match goal with |- context [find_coefficients fair_env g ?t] => destruct (coefficients_end fair_env g t) as (s3 & K) end.
    - rewrite Hlg. lia.
    - cbn [fair_env pe_fuel]. lia.
    - rewrite K. unfold smod. eauto. }
  destruct B as (s2 & B). pose proof (blades_keep fair_env g (local_state half_J (pg_name g)) s1) as Kv. rewrite B in Kv. cbn [snd] in Kv.
  rewrite B. unfold sget, slift, smod, sret.
  assert (Hv : vdot (p_v s2) (p_v s2) = 1).
  { rewrite Kv. change (p_v s1) with v. unfold v. rewrite !dgetd_entry. eapply airflow_1_unit. apply freestream_airflow; [rnum; lra|]. apply not_both_right. left.
    pose proof (cos_sixty _ A4). lra. }
  assert (Hu : vdot (pg_forward g) (pg_forward g) = 1) by (rewrite E1; apply propeller_axis_unit).
  assert (K4 : exists q, resolve g cg s2 = Ok q).
  { unfold resolve. rewrite (vec_angle_ok _ _ Hu (vopp_unit _ Hv)). unfold rbind.
    destruct (acos _ =? n0)%num; eexists; reflexivity. }
  destruct K4 as (q & K4). rewrite K4. eauto.
Qed.
Lemma engines_total cg a : fair (an a) -> forall gs ss,
  (forall g : pgeom R, In g gs -> exists u wp name y turns, make_pgeom fair_env u wp (engine name y turns) = Ok g /\ name <> "J") ->
  List.length ss = List.length gs ->
  exists qs ss', run_props fair_env cg (Some a) half_J gs ss = (Ok qs, ss') /\ List.length qs = List.length gs /\ List.length ss' = List.length gs.
Proof.
  intros Ha. induction gs as [|g gs IH]; intros [|s ss] Hm Hl; try discriminate.
  - exists [], []. split; [reflexivity|]. split; reflexivity.
  - destruct (Hm g ltac:(now left)) as (u & wp & name & y & turns & Hg & Hn).
    destruct (engine_total cg a g s u wp name y turns Ha Hn Hg) as (q & s' & K).
    destruct (IH ss ltac:(intros k Hk; apply Hm; now right) ltac:(cbn in Hl; lia)) as (qs & ss' & K' & L1 & L2).
    exists (q :: qs), (s' :: ss'). cbn [run_props]. rewrite K, K'. split; [reflexivity|]. cbn [List.length]. lia.
Qed.
(** [undisturbed] for any flow *)
Lemma undisturbed_any (r : R * vec3 R) gs ss : (forall g : pgeom R, In g gs -> exists E u name y turns, make_pgeom E u (Some two_points) (engine name y turns) = Ok g /\ (y = 5 \/ y = -5)) ->
  slipstreams gs ss [r; r] = [r; r].
Proof.
  intros H.
  assert (L : List.length (slipstreams gs ss [r; r]) = 2%nat).
  { apply slipstreams_length; [reflexivity|]. intros g q I1 I2. destruct (H g I1) as (E & u & name & y & turns & Hg & Hy).
    destruct (make_pgeom_data _ _ _ _ _ Hg) as (_ & _ & _ & _ & _ & _ & Ew). rewrite Ew in I2. injection I2 as <-. reflexivity. }
  assert (P : forall i pt, nth_error two_points i = Some pt -> nth_error (slipstreams gs ss [r; r]) i = Some r).
  { intros i pt Hp. apply (slipstreams_out gs ss _ i r two_points pt); [|exact Hp|].
    - destruct i as [|[|i]]; [reflexivity|reflexivity|]. destruct i; discriminate Hp.
    - intros g Hg. destruct (H g Hg) as (E & u & name & y & turns & Hm & Hy). apply (outside g E u two_points name y turns Hm Hy).
      destruct i as [|[|i]]; [| |destruct i; discriminate Hp]; cbn [two_points nth_error] in Hp; injection Hp as <-; auto. }
  destruct (slipstreams gs ss [r; r]) as [|a [|b [|? ?]]]; try discriminate L.
  pose proof (P 0%nat _ eq_refl) as P0. pose proof (P 1%nat _ eq_refl) as P1. cbn [nth_error] in P0, P1. congruence.
Qed.
Lemma freestream_scaled al be : vscale 10 (freestream 1 al be) = freestream (T := R) 10 al be.
Proof. unfold freestream. cbv zeta. apply vec_eq; cbn [vscale vx vy vz]; rnum; unfold Rdiv; ring. Qed.
(** [flyer_total] when the flow is also given section by section *)
Lemma local_total a (c : dict R) l : fair (an a) -> c <> [] ->
  let r := (1, vscale 10 (freestream n1 (dgetd (an a) "alpha" n0) (dgetd (an a) "beta" n0))) in
  exists w l', ll_solve gauss_solver flyer_grid vzero "linear" (Some (set_local a [r; r])) (Some c) l = (Ok TheResultsDict, l') /\ l_results l' = Some w.
Proof.
  intros Ha Hc r. pose proof (fair_given _ Ha) as Na. destruct Ha as (A2 & A3 & A4 & A5 & A6).
  assert (Hg : given_aero (Some (set_local a [r; r]))) by (eexists; split; [reflexivity|left; exact Na]).
  pose proof (process_aero_base flyer_grid vzero _ l eq_refl Hg) as P.
  assert (Er : r = (1, freestream 10 (entry (an a) "alpha") (entry (an a) "beta"))).
  { unfold r. rewrite !dgetd_entry. change (@n1 R Rnum) with 1. now rewrite freestream_scaled. }
  clearbody r. subst r.
  destruct (moderate_stream _ _ A4 A5) as [F1 F2]. cbv zeta in F1, F2.
  set (f := freestream 10 _ _) in *.
  assert (Eb : base_flow (g_num flyer_grid) (set_local a [(1, f); (1, f)]) = Ok ([f; f], unit_of f, [1; 1])).
  { unfold base_flow. cbn [set_local als an]. change (g_num flyer_grid) with 2%nat. rewrite A2. reflexivity. }
  rewrite Eb in P. cbn [map2 g_sections flyer_grid set_local an] in P.
  destruct P as (s1 & H1 & Ev & Eu & Er & _).
  destruct (process_control_ok flyer_grid (Some c) s1) as (s2 & H2).
  destruct (process_control_flow _ _ _ H2) as (D1 & D2 & D3 & D4).
  assert (D : exists d1 d2 e1 e2, l_delta s2 = [d1; d2] /\ l_eff s2 = [e1; e2]).
  { destruct c as [|e c]; [congruence|]. cbv zeta in D4. apply pair_equal_spec in D4. destruct D4 as [-> ->]. cbn [g_sections flyer_grid map]. eauto 10. }
  destruct D as (d1 & d2 & e1 & e2 & Ed2 & Ee2).
  unfold ll_solve, sbind. rewrite H1, H2. change (String.eqb "linear" "linear") with true. cbv iota. unfold linear_solve.
  assert (Ec : exists v1 v2, cells flyer_grid s2 = [MkCell sec_l v1 1 d1 e1; MkCell sec_r v2 1 d2 e2] /\ 0 < vnorm v1 /\ 0 < vnorm v2).
  { eexists _, _. unfold cells. rewrite D1, D3, Ev, Er, Ed2, Ee2. split; [reflexivity|].
    apply Rabs_le_both in A6. unfold body_rates.
    split; apply vnorm_pos; intros K; apply (f_equal (@vx R)) in K; revert K; unfold at_section; vunf;
      cbn [sec_l sec_r flyer_section s_r vx vy vz]; lra. }
  destruct Ec as (v1 & v2 & Ec & V1 & V2).
  assert (Uf : l_uinf s2 = vdivs f 10) by (rewrite D2, Eu; unfold unit_of; now rewrite F1).
  assert (N1 : vx f * vx f + vy f * vy f + vz f * vz f = 100).
  { pose proof (vnorm_sq f) as E. rewrite F1 in E. unfold vdot in E. revert E. rnum. lra. }
  destruct (flyer_regular gauss_solver (l_uinf s2) v1 v2 1 d1 d2 e1 e2 gauss_exact) as [x Hx]; auto.
  { rewrite Uf. cbn [vdivs vx]. rnum. lra. }
  { rewrite Uf. cbn [vdivs vy]. rnum. unfold Rdiv. pose proof (Rle_0_sqr (vz f)) as Z. unfold Rsqr in Z. nra. }
  cbv zeta in Hx. rewrite Ec, Hx. cbn [l_results]. eexists _, _. split; reflexivity.
Qed.

(** *** The twin *)
Lemma twin_refs : make_refs twin flyer_grid = MkRefs 8 8 1.
Proof.
  unfold make_refs, twin, winged. cbn [a_lat_ref a_long_ref g_segments g_ref_area flyer_grid].
  assert (Ew : widest [seg_l; seg_r] = 8).
  { unfold widest. cbn [fold_left seg_l seg_r flyer_seg sg_span]. rnum.
    assert (G1 : ngtb (2 * 4) 0 = true) by (unfold ngtb; apply Rltb_true; lra).
    assert (G2 : ngtb (2 * 4) (2 * 4) = false) by (unfold ngtb; apply Rltb_false; lra).
    cbv zeta. rewrite !G1, G2. lra. }
  rewrite Ew. f_equal. rnum. field.
Qed.
Lemma twin_machup : exists X, make_machup fair_menv twin = Ok X /\ mm_grid X = Some flyer_grid /\ mm_cg X = vzero /\ mm_points X = Some 2%nat /\
  List.length (mm_props X) = 2%nat /\ mm_refs X = Some (MkRefs 8 8 1 : refs R) /\
  (forall g, In g (mm_props X) -> exists u name y turns, make_pgeom fair_env u (Some two_points) (engine name y turns) = Ok g /\ (y = 5 \/ y = -5) /\ name <> "J").
Proof.
  destruct (engine_make fair_env (Some "English") (Some two_points) "left" (-5) "CCW") as (g & Hg & _).
  destruct (engine_make fair_env (Some "English") (Some two_points) "right" 5 "CW") as (g' & Hg' & _).
  exists (MkMU (Some flyer_grid) (Some (MkRefs 8 8 1)) [g; g'] (Some 2%nat) vzero). cbn [mm_grid mm_cg mm_points mm_props mm_refs].
  split; [|split; [reflexivity|split; [reflexivity|split; [reflexivity|split; [reflexivity|split; [reflexivity|]]]]]].
  - unfold make_machup. assert (Eg : make_grid true twin = Ok flyer_grid) by (rewrite <- (flyer_grid_ok true); reflexivity).
    rewrite Eg. assert (Ew : a_wings twin <> []) by (unfold twin, winged; rewrite flyer_eq; discriminate).
    destruct (a_wings twin) as [|q ws]; [congruence|]. cbn [rbind option_map]. unfold twin at 1. cbn [winged a_props]. cbv iota.
    change (map (@s_r R) (g_sections flyer_grid)) with two_points. change (me_prop fair_menv) with fair_env.
    assert (Ep : make_props fair_env twin (Some two_points) = Ok [g; g']).
    { unfold make_props, twin. cbn [winged a_props map snd rmap]. unfold get_units. cbn [winged a_units rbind]. unfold left_engine, right_engine. rewrite Hg.
      rewrite Hg'. reflexivity. }
    rewrite Ep. cbn [rbind]. rewrite twin_refs. reflexivity.
  - intros k [<- | [<- | []]].
    + exists (Some "English"), "left", (-5), "CCW". split; [exact Hg|]. split; [now right|discriminate].
    + exists (Some "English"), "right", 5, "CW". split; [exact Hg'|]. split; [now left|discriminate].
Qed.

Definition even (s : mstate R) : Prop := List.length (m_ps s) = 2%nat.
Lemma twin_total X : make_machup fair_menv twin = Ok X -> forall a (c : dict R) s, fair (an a) -> c <> [] -> even s ->
  exists f a' s', h_solve (host_of fair_menv X half_J) a (Some c) s = (Ok f, a', s') /\ an a' = an a /\ even s'.
Proof.
  intros HX a c s Ha Hc Hs. destruct twin_machup as (X' & HX' & Eg & Ec & Ep & El & _ & Hm). assert (X' = X) by congruence. subst X'.
  cbn [host_of h_solve]. unfold solve_parts. rewrite Ep, Ec, Eg. change (me_prop fair_menv) with fair_env. change (me_lsolve fair_menv) with gauss_solver.
  destruct (engines_total vzero a Ha (mm_props X) (m_ps s)) as (qs & ss & K & L1 & L2).
  { intros g Hg. destruct (Hm g Hg) as (u & name & y & turns & G1 & _ & G2). eauto 10. }
  { unfold even in Hs. congruence. }
  assert (Hne : mm_props X <> []) by (intros Q; rewrite Q in El; discriminate).
  destruct (mm_props X) as [|g0 gs] eqn:Egs; [congruence|]. rewrite <- Egs in *. clear Hne.
  assert (Hs2 : exists pt, props_solve fair_env vzero (Some 2%nat) (Some a) half_J (mm_props X) (m_ps s) =
    (Ok (pt, Some (let r := (1, vscale 10 (freestream n1 (dgetd (an a) "alpha" n0) (dgetd (an a) "beta" n0))) in [r; r])), ss)).
  { unfold props_solve, calc_forces, sbind. rewrite K.
    destruct (last_of qs) as [[[[F M] Th] l]|] eqn:Elq.
    2:{ unfold last_of in Elq. apply nth_error_None in Elq. lia. }
    assert (Ev : velocity_field (Some a) 2 = Ok (let r := (1, vscale 10 (freestream n1 (dgetd (an a) "alpha" n0) (dgetd (an a) "beta" n0))) in [r; r])).
    { unfold velocity_field, opt_truthy. rewrite (truthy_given a (fair_given _ Ha)). destruct Ha as (A2 & A3 & _). rewrite A2, A3. reflexivity. }
    rewrite Ev. unfold slift, sget, sret. cbv zeta. rewrite undisturbed_any; [eauto|].
    intros g Hg. destruct (Hm g Hg) as (u & name & y & turns & G1 & G2 & _). exists fair_env, u, name, y, turns. auto. }
  destruct Hs2 as (pt & Hs2). rewrite Egs in Hs2 |- *. cbv iota. rewrite <- Egs in *.
  match goal with |- context [props_solve ?e ?cg ?n ?b ?h ?g ?t] => replace (props_solve e cg n b h g t) with
    (@Ok (prop_total * option (list (R * vec3 R))) (pt, Some (let r := (1, vscale 10 (freestream n1 (dgetd (an a) "alpha" n0) (dgetd (an a) "beta" n0))) in [r; r])), ss)
    by (symmetry; exact Hs2) end.
  cbv iota zeta. destruct (local_total a c (m_ll s) Ha Hc) as (w & l' & W1 & W2). cbv zeta in W1. cbn [m_ll m_ps]. rewrite W1. cbn [read_ref]. rewrite W2.
  cbn [rbind snd]. eexists _, _, _. split; [reflexivity|]. split; [reflexivity|]. unfold even. cbn [m_ps]. congruence.
Qed.

Definition gentle (d : dict R) : Prop :=
  dget d "V_mag" = Some 10 /\ dget d "rho" = Some 1 /\
  forall k, In k ["alpha"; "beta"; "roll_rate"; "pitch_rate"; "yaw_rate"] -> Rabs (entry d k) <= 1 / 2.
Lemma gentle_fair d : gentle d -> fair d.
Proof.
  intros (A2 & A3 & A4). repeat (split; [assumption|]). repeat split.
  - pose proof (A4 "alpha" ltac:(cbn; tauto)). lra.
  - pose proof (A4 "beta" ltac:(cbn; tauto)). lra.
  - pose proof (A4 "yaw_rate" ltac:(cbn; tauto)). lra.
Qed.
Lemma gentle_set d k x : gentle d -> calm_value k x -> gentle (dset d k x).
Proof.
  intros (A2 & A3 & A4) [Hk Hx].
  assert (k <> "V_mag" /\ k <> "rho") as [K1 K2].
  { cbn [In] in Hk. split; intros ->; repeat (destruct Hk as [Hk|Hk]; [discriminate|]); contradiction. }
  unfold gentle. rewrite !dget_dset_other by auto. repeat (split; [assumption|]). intros k' Hk'. rewrite entry_dset.
  destruct (String.eqb k' k); [exact Hx|now apply A4].
Qed.
Lemma gentle_reach k d : In k ["alpha"; "beta"; "roll_rate"; "pitch_rate"; "yaw_rate"] -> Rabs d <= 1 / 2 ->
  reach3 gentle calm_value fair k d.
Proof.
  intros Hk Hd a x Ha [_ Hx]. pose proof (gentle_fair _ Ha) as (M2 & M3 & M4 & M5 & M6).
  assert (Hm : forall y, Rabs y <= 1 -> fair (dset a k y)).
  { intros y Hy. assert (k <> "V_mag" /\ k <> "rho") as [K1 K2].
    { cbn [In] in Hk. split; intros ->; repeat (destruct Hk as [Hk|Hk]; [discriminate|]); contradiction. }
    unfold fair. rewrite !dget_dset_other by auto. repeat (split; [assumption|]).
    rewrite !entry_dset. repeat split;
      (match goal with |- context [String.eqb ?u k] => destruct (String.eqb u k) end; [lra|assumption]). }
  apply Rabs_le_both in Hx. apply Rabs_le_both in Hd.
  split; apply Hm, Rabs_le; rnum; lra.
Qed.

Lemma twin_derivatives X f w a c : make_machup fair_menv twin = Ok X -> even (w_model w) ->
  w_aero w = Some a -> gentle (an a) -> w_ctl w = Some c -> c <> [] ->
  exists d w', derivatives (host_of fair_menv X half_J) f w = (Ok (Answer d), w').
Proof.
  intros HX Hi Ea Ha Ec Hc. pose proof (twin_total X HX) as TT. set (H := host_of fair_menv X half_J) in *.
  set (r := MkRefs 8 8 1 : refs R).
  assert (Er : h_refs H = Some r).
  { destruct twin_machup as (X' & HX' & _ & _ & _ & _ & E & _). assert (X' = X) by congruence. subst X'. exact E. }
  assert (G2 : forall a k, gentle a -> In k ["alpha"; "beta"; "roll_rate"; "pitch_rate"; "yaw_rate"] -> calm_value k (dgetd a k n0)).
  { intros a0 k (_ & _ & K) Hk. split; [exact Hk|]. rewrite dgetd_entry. now apply K. }
  assert (G3 : forall x, calm_value "pitch_rate" x -> calm_value "yaw_rate" x).
  { intros x [_ K]. split; [cbn; tauto|exact K]. }
  assert (G4 : forall a, gentle a -> dgetd a "V_mag" (nint 10) = 10).
  { intros a0 (K & _). unfold dgetd. now rewrite K. }
  assert (D1 : Rabs (ndec (T := R) 5 1) <= 1 / 2) by (rnum; unfold Rdec; simpl; rewrite Rabs_right; lra).
  assert (D2 : Rabs (ndiv (nmul (nmul (ndec 5 3) n2) 10) (r_lat r)) <= 1 / 2)
    by (cbn [r r_lat]; rnum; unfold Rdec; simpl; rewrite Rabs_right; lra).
  assert (D3 : Rabs (ndiv (nmul (nmul (ndec 5 3) n2) 10) (r_long r)) <= 1 / 2)
    by (cbn [r r_long]; rnum; unfold Rdec; simpl; rewrite Rabs_right; lra).
  assert (W : good3 even gentle w) by (split; eauto).
  destruct (runs3_stability H even gentle calm_value fair fair_given gentle_fair G2 gentle_set r Er
    (gentle_reach "alpha" _ ltac:(cbn; tauto) D1) (gentle_reach "beta" _ ltac:(cbn; tauto) D1) TT w W) as (d1 & w1 & K1 & W1).
  destruct (runs3_control H even gentle fair fair_given gentle_fair r Er TT w1 W1) as (d2 & w2 & K2 & W2).
  destruct (runs3_damping H even gentle calm_value fair fair_given gentle_fair G2 gentle_set G3 r Er 10 G4
    (gentle_reach "roll_rate" _ ltac:(cbn; tauto) D2) (gentle_reach "pitch_rate" _ ltac:(cbn; tauto) D3) (gentle_reach "yaw_rate" _ ltac:(cbn; tauto) D2)
    TT w2 W2) as (d3 & w3 & K3 & W3).
  destruct (stability_given H (host_keeps fair_menv X half_J) w a d1 w1 Ea ltac:(left; exact (fair_given _ (gentle_fair _ Ha))) K1)
    as (r' & k1 & k2 & k3 & k4 & b1 & f1 & b2 & f2 & a' & _ & _ & _ & _ & _ & _ & _ & D & _).
  pose proof (D "CL" (@FL R) 1 ltac:(cbn; auto)) as L1. pose proof (D "Cm" (@MY R) (r_long r') ltac:(cbn; tauto)) as L2.
  change (String.append "CL" "_a") with "CL_a" in L1. change (String.append "Cm" "_a") with "Cm_a" in L2.
  unfold derivatives. rewrite Er. unfold sbind. rewrite K1. unfold slift, dlookup. rewrite L1, L2, K2, K3. unfold sret.
  rewrite write_run. eexists _, _. reflexivity.
Qed.
Lemma twin_settings_half : twin_settings twin half_J.
Proof.
  intros d e e' Ed I1 I2 _. unfold half_J in Ed. injection Ed as <-.
  destruct I1 as [<- | [<- | []]], I2 as [<- | [<- | []]]; reflexivity.
Qed.
