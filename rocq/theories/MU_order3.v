(** The order of the propellers (C80), and counter-rotating twins (C81). *)
From Coq Require Import Reals ZArith String Bool Arith Lia Lra List Permutation.
From Verif Require Import Base Num RVec Geometry Api Grid LLModel PropModel Spec_Grid Spec_Geom Spec_LL LL_state LL_R LL_solve
  Grid_facts Grid_thm Mirror LL_props LL_thm LL_thm2 LL_sym Spec_Mirror LL_mirror LL_mirror2 LL_mirror3 MU Spec_MirrorProp Prop_mirror MU_mirror2.
Import ListNotations.
Local Open Scope string_scope.
Local Open Scope R_scope.

Notation quad := (vec3 R * vec3 R * R * R)%type.
(** *** Running the propellers in another order *)
Section Run.
  Variables (E : penv R) (cg : vec3 R) (a : option (aero_state R)) (ps : option (dict (pval R))).
  (** a propeller with its state, and with what it returned and its state afterwards *)
  Definition ran_one (x : pgeom R * pst) (y : pgeom R * quad * pst) : Prop :=
    fst (fst y) = fst x /\ run_prop E cg a ps (fst x) (snd x) = (Ok (snd (fst y)), snd y).
  Lemma run_props_out gs : forall ss qs ss', List.length ss = List.length gs -> run_props E cg a ps gs ss = (Ok qs, ss') ->
    exists o, Forall2 ran_one (combine gs ss) o /\ qs = map (fun y => snd (fst y)) o /\ ss' = map snd o /\ gs = map (fun y => fst (fst y)) o.
  Proof.
    induction gs as [|g gs IH]; intros [|s ss] qs ss' L; try discriminate.
    - cbn [run_props]. intros K. injection K as <- <-. exists []. cbn [combine map]. auto.
    - cbn [run_props]. destruct (run_prop E cg a ps g s) as [[q|e] t] eqn:Er; [|discriminate].
      destruct (run_props E cg a ps gs ss) as [[qs0|e] ts] eqn:Ers; [|discriminate]. intros K. injection K as <- <-.
      destruct (IH ss qs0 ts ltac:(cbn in L; lia) Ers) as (o & O1 & -> & -> & ->).
      exists ((g, q, t) :: o). cbn [combine map fst snd]. split; [|auto]. constructor; [|exact O1]. split; [reflexivity|exact Er].
  Qed.
  Lemma run_props_in gs : forall ss o, List.length ss = List.length gs -> Forall2 ran_one (combine gs ss) o ->
    run_props E cg a ps gs ss = (Ok (map (fun y => snd (fst y)) o), map snd o) /\ gs = map (fun y => fst (fst y)) o.
  Proof.
    induction gs as [|g gs IH]; intros [|s ss] o L; try discriminate; intros H; inversion H as [|x y l l' [H1 H2] H3]; subst; [auto|].
    destruct (IH ss l' ltac:(cbn in L; lia) H3) as [K1 K2]. cbn [run_props]. cbn [fst snd] in H1, H2. rewrite H2, K1. cbn [map]. rewrite <- K2, H1. auto.
  Qed.
End Run.

Lemma fold_perm {A} (f : A -> vec3 R) l l' : Permutation l l' -> forall v,
  fold_left (fun a q => vadd a (f q)) l v = fold_left (fun a q => vadd a (f q)) l' v.
Proof.
  induction 1 as [|x l l' H IH|x y l|l1 l2 l3 H1 IH1 H2 IH2]; intros v; cbn [fold_left]; auto.
  - f_equal. vring.
  - now rewrite IH1.
Qed.
Lemma add_add {A B} (fa : A -> vec3 R) (fb : B -> vec3 R) : forall (rows : list (R * vec3 R)) la lb,
  map2 (fun r w => (fst r, vadd (snd r) (fb w))) (map2 (fun r w => (fst r, vadd (snd r) (fa w))) rows la) lb =
  map2 (fun r w => (fst r, vadd (snd r) (fa w))) (map2 (fun r w => (fst r, vadd (snd r) (fb w))) rows lb) la.
Proof.
  induction rows as [|r rows IH]; intros [|x la] [|y lb]; cbn [map2]; auto. rewrite IH. f_equal. cbn [fst snd]. f_equal. vring.
Qed.
Lemma slipstreams_perm l l' : Permutation l l' -> forall rows,
  slipstreams (map fst l) (map (@snd (pgeom R) pst) l) rows = slipstreams (map fst l') (map snd l') rows.
Proof.
  induction 1 as [|x l l' H IH|x y l|l1 l2 l3 H1 IH1 H2 IH2]; intros rows; cbn [map slipstreams]; auto.
  - f_equal. unfold add_slipstream. destruct (pg_wing (fst x)), (pg_wing (fst y)); auto. apply add_add.
  - now rewrite IH1.
Qed.

(** *** One solve *)
Record same_but_order (X X' : machup R) : Prop := {
  sb_grid : mm_grid X' = mm_grid X;
  sb_points : mm_points X' = mm_points X;
  sb_cg : mm_cg X' = mm_cg X;
  sb_props : Permutation (mm_props X) (mm_props X')
}.
Definition reord (X X' : machup R) (s s' : mstate R) : Prop :=
  m_ll s' = m_ll s /\ List.length (m_ps s) = List.length (mm_props X) /\ List.length (m_ps s') = List.length (mm_props X') /\
  Permutation (combine (mm_props X) (m_ps s)) (combine (mm_props X') (m_ps s')).
Lemma props_reorder E cg pts (a : aero_state R) ps gs gs' ss ss' pt rows t :
  List.length ss = List.length gs -> List.length ss' = List.length gs' -> Permutation (combine gs ss) (combine gs' ss') ->
  props_solve E cg pts (Some a) ps gs ss = (Ok (pt, rows), t) ->
  exists pt' t', props_solve E cg pts (Some a) ps gs' ss' = (Ok (pt', rows), t') /\ pt_fm pt' = pt_fm pt /\
    List.length t = List.length gs /\ List.length t' = List.length gs' /\ Permutation (combine gs t) (combine gs' t').
Proof.
  intros L L' P. unfold props_solve, sbind, calc_forces.
  destruct (run_props E cg (Some a) ps gs ss) as [[qs|e] t1] eqn:Er; [|discriminate]. cbv zeta.
  destruct (run_props_out _ _ _ _ _ _ _ _ L Er) as (o & O & Eq & Et & Eg).
  destruct (Permutation_Forall2 P O) as (o' & Po & O').
  destruct (run_props_in _ _ _ _ _ _ _ L' O') as [Er' Eg']. rewrite Er'.
  destruct (last_of qs) as [[[[F0 M0] T0] l0]|] eqn:El; [|discriminate].
  assert (El' : exists q, last_of (map (fun y : pgeom R * quad * pst => snd (fst y)) o') = Some q).
  { unfold last_of in *. destruct (nth_error (map (fun y : pgeom R * quad * pst => snd (fst y)) o') _) eqn:En; [eauto|exfalso].
    apply nth_error_None in En. rewrite !map_length in En. subst qs. rewrite map_length in El.
    rewrite <- (Permutation_length Po) in En.
    destruct (List.length o) eqn:Lo; [|cbn in En; lia]. destruct o; [|discriminate]. discriminate. }
  destruct El' as ([[[F1 M1] T1] l1] & ->).
  assert (Pq : Permutation qs (map (fun y : pgeom R * quad * pst => snd (fst y)) o')) by (subst qs; now apply Permutation_map).
  assert (Ef : forall f : quad -> vec3 R, fold_left (fun a q => vadd a (f q)) (map (fun y : pgeom R * quad * pst => snd (fst y)) o') vzero
     = fold_left (fun a q => vadd a (f q)) qs vzero) by (intros f; symmetry; now apply fold_perm).
  assert (Hc : forall l : list (pgeom R * quad * pst), combine (map (fun y => fst (fst y)) l) (map snd l) = map (fun y => (fst (fst y), snd y)) l).
  { induction l as [|x l IH]; cbn; [reflexivity|]. now rewrite IH. }
  assert (Z : forall pt0, List.length t1 = List.length gs /\ List.length (map snd o') = List.length gs' /\ Permutation (combine gs t1) (combine gs' (map snd o')) /\ pt0 = pt0 :> @prop_total R).
  { intros pt0. rewrite Et, Eg, Eg', !map_length, !Hc. repeat split; auto. now apply Permutation_map. }
  destruct pts as [m|].
  - unfold slift. destruct (velocity_field (Some a) m) as [rw|e]; [|discriminate]. unfold sget, sret.
    intros K. apply pair_equal_spec in K. destruct K as [K <-]. injection K as <- <-.
    eexists _, _. split.
    + assert (Es : slipstreams gs' (map snd o') rw = slipstreams gs t1 rw).
      { rewrite Et, Eg, Eg'. pose proof (slipstreams_perm _ _ (Permutation_map (fun y : pgeom R * quad * pst => (fst (fst y), snd y)) Po) rw) as S.
        rewrite !map_map in S. cbn [fst snd] in S. symmetry. exact S. }
      rewrite Es. reflexivity.
    + cbn [pt_fm]. rewrite (Ef (fun q => fst (fst (fst q)))), (Ef (fun q => snd (fst (fst q)))). split; [reflexivity|].
      destruct (Z (MkPT zero_fm 0 0)) as (Z1 & Z2 & Z3 & _). auto.
  - unfold sret. intros K. apply pair_equal_spec in K. destruct K as [K <-]. injection K as <- <-.
    eexists _, _. split; [reflexivity|]. cbn [pt_fm]. rewrite (Ef (fun q => fst (fst (fst q)))), (Ef (fun q => snd (fst (fst q)))). split; [reflexivity|].
    destruct (Z (MkPT zero_fm 0 0)) as (Z1 & Z2 & Z3 & _). auto.
Qed.

Lemma solve_parts_reorder E X X' ps a c s s' w pr tot a1 t : same_but_order X X' -> reord X X' s s' ->
  solve_parts E X ps a c s = (Ok (w, pr, tot), a1, t) ->
  exists pr' t', solve_parts E X' ps a c s' = (Ok (w, pr', tot), a1, t') /\ reord X X' t t'.
Proof.
  intros [Bg Bp Bc Pp] (R1 & R2 & R3 & R4). unfold solve_parts. rewrite Bg, Bp, Bc.
  destruct (mm_props X) as [|g gs] eqn:Ep.
  - apply Permutation_nil in Pp. rewrite Pp. rewrite R1. intros K.
    assert (Rr : forall l, reord X X' (MkM l (m_ps s)) (MkM l (m_ps s'))).
    { intros l. unfold reord. cbn [m_ll m_ps]. rewrite Ep. auto. }
    assert (Es : s = MkM (m_ll s) (m_ps s)) by (destruct s; reflexivity).
    assert (Es' : s' = MkM (m_ll s) (m_ps s')) by (rewrite <- R1; destruct s'; reflexivity).
    destruct (mm_grid X) as [gr|].
    + destruct (ll_solve _ _ _ _ _ _ _) as [[r|e] l]; [|discriminate]. destruct (read_ref l r); [|discriminate].
      injection K as <- <- <- <- <-. eexists _, _. split; [reflexivity|apply Rr].
    + injection K as <- <- <- <- <-. eexists _, _. split; [reflexivity|]. rewrite Es, Es'. apply Rr.
  - destruct (props_solve (me_prop E) (mm_cg X) (mm_points X) (Some a) ps (g :: gs) (m_ps s)) as [[[pt rows]|e] ss] eqn:Es; [|discriminate].
    destruct (props_reorder _ _ _ _ _ _ (mm_props X') _ (m_ps s') _ _ _ R2 R3 R4 Es) as (pt' & t' & Es' & Ef & L1 & L2 & P').
    destruct (mm_props X') as [|g' gs'] eqn:Ep'; [apply Permutation_sym, Permutation_nil in Pp; discriminate|].
    rewrite Es'. rewrite <- Ep, <- Ep' in *. cbn [m_ll m_ps]. rewrite R1, Ef. intros K.
    assert (Rr : forall l, reord X X' (MkM l ss) (MkM l t')) by (intros l; unfold reord; cbn [m_ll m_ps]; auto).
    destruct (mm_grid X) as [gr|].
    + destruct (ll_solve _ _ _ _ _ _ _) as [[r|e] l]; [|discriminate]. destruct (read_ref l r); [|discriminate].
      injection K as <- <- <- <- <-. eexists _, _. split; [reflexivity|apply Rr].
    + injection K as <- <- <- <- <-. eexists _, _. split; [reflexivity|apply Rr].
Qed.

Lemma solve_all_reorder E X X' : same_but_order X X' -> forall calls s s',
  (forall i, In i calls -> an (sa_aero i) <> []) -> reord X X' s s' -> Forall returned (solve_all E X s calls) ->
  solve_all E X' s' calls = solve_all E X s calls.
Proof.
  intros B. induction calls as [|i calls IH]; intros s s' Na M H; [reflexivity|]. cbn [solve_all] in *.
  unfold mu_solve, opt_truthy in *. cbn [w_aero w_ctl w_model w_files w_log] in *.
  rewrite (truthy_given (sa_aero i)) in * by (apply Na; now left).
  destruct (solve_parts E X (sa_prop i) (sa_aero i) (sa_ctl i) s) as [[r a1] t] eqn:Es.
  destruct r as [[[w pr] tot]|e1].
  2:{ inversion_clear H as [|? ? [x Hx] _]. discriminate. }
  destruct (solve_parts_reorder _ _ _ _ _ _ _ _ _ _ _ _ _ B M Es) as (pr' & t' & Es' & M'). rewrite Es'.
  unfold sbind, write_if, named, sret in *. cbn [w_model] in *.
  inversion_clear H as [|? ? _ H2]. f_equal. apply IH; auto. intros j Hj. apply Na. now right.
Qed.
Lemma init_reord X X' : same_but_order X X' -> reord X X' (init_mstate X) (init_mstate X').
Proof.
  intros [Bg Bp Bc Pp]. unfold reord, init_mstate. rewrite Bg. cbn [m_ll m_ps]. rewrite !map_length. repeat split; auto.
  assert (Hc : forall l : list (pgeom R), combine l (map init_pstate l) = map (fun g => (g, init_pstate g)) l).
  { induction l as [|x l IH]; cbn; [reflexivity|]. now rewrite IH. }
  rewrite !Hc. now apply Permutation_map.
Qed.

Lemma rmap_forall2 {A B} (f : A -> res B) l : forall o, rmap f l = Ok o <-> Forall2 (fun x y => f x = Ok y) l o.
Proof.
  induction l as [|x l IH]; intros o; cbn [rmap].
  - split; [intros K; injection K as <-; constructor|intros K; inversion K; reflexivity].
  - split.
    + destruct (f x) as [y|] eqn:Ef; [|discriminate]. cbn [rbind]. destruct (rmap f l) as [ys|]; [|discriminate]. cbn [rbind].
      intros K. injection K as <-. constructor; auto. now apply IH.
    + intros K. inversion K as [|? y ? ys K1 K2]; subst. rewrite K1. cbn [rbind]. apply IH in K2. rewrite K2. reflexivity.
Qed.
Lemma make_machup_reorder E pl pl' X : reordered_props pl pl' -> make_machup E pl = Ok X ->
  exists X', make_machup E pl' = Ok X' /\ same_but_order X X'.
Proof.
  intros [H1 H2 H3 H4 H5] HX.
  pose proof (make_grid_same pl pl' H1 true) as Eg.
  unfold make_machup in *. rewrite Eg. destruct H1 as (Ew & _ & _). rewrite Ew.
  destruct (match a_wings pl with [] => _ | _ => _ end) as [og|e]; [|discriminate]. cbn [rbind] in *. cbv zeta in *.
  set (pts := option_map _ og) in *.
  destruct (match a_props pl with [] => Ok [] | _ => _ end) as [gs|e] eqn:Ep; [|discriminate]. cbn [rbind] in HX. injection HX as <-.
  assert (Q : exists gs', match a_props pl' with [] => Ok [] | _ => make_props (me_prop E) pl' pts end = Ok gs' /\ Permutation gs gs').
  { assert (Ep0 : make_props (me_prop E) pl pts = Ok gs).
    { destruct (a_props pl) eqn:Ea; [|exact Ep]. unfold make_props. rewrite Ea. exact Ep. }
    unfold make_props in Ep0. apply rmap_forall2 in Ep0.
    destruct (Permutation_Forall2 (Permutation_map snd H5) Ep0) as (gs' & Pg & F).
    exists gs'. split; [|exact Pg].
    assert (K : make_props (me_prop E) pl' pts = Ok gs').
    { unfold make_props. apply rmap_forall2. unfold get_units in *. rewrite H3. exact F. }
    destruct (a_props pl') eqn:Ea; [|exact K]. unfold make_props in K. rewrite Ea in K. exact K. }
  destruct Q as (gs' & -> & Pg). eexists. split; [reflexivity|]. split; cbn; auto.
Qed.
Lemma C80_lemma E pl pl' X : reordered_props pl pl' -> make_machup E pl = Ok X ->
  exists X', make_machup E pl' = Ok X' /\
    forall calls, Forall (fun i => an (sa_aero i) <> []) calls -> Forall returned (solve_all E X (init_mstate X) calls) ->
      solve_all E X' (init_mstate X') calls = solve_all E X (init_mstate X) calls.
Proof.
  intros H HX. destruct (make_machup_reorder E pl pl' X H HX) as (X' & HX' & B). exists X'. split; [exact HX'|].
  intros calls Hc. rewrite Forall_forall in Hc. apply solve_all_reorder; auto. now apply init_reord.
Qed.

(** *** Counter-rotating twins *)
Lemma C81_lemma E pl X calls :
  built pl -> mirror_symmetric pl -> vy (a_cg pl) = 0 -> twin_propellers pl ->
  exact_solver (me_lsolve E) -> (forall n n', pe_mem (me_prop E) n = pe_mem (me_prop E) n') ->
  make_machup E pl = Ok X -> Forall (symmetric_args pl) calls -> Forall returned (solve_all E X (init_mstate X) calls) ->
  Forall (fun r => exists f, r = Ok f /\ no_lateral_loads f) (solve_all E X (init_mstate X) calls).
Proof.
  intros Hb Hs Hcg (l & Pl & Fl) He Hmem HX Hc Hr.
  set (pl' := MkAirplane (a_name pl) (a_wings pl) (a_store pl) l (a_cg pl) (a_long_ref pl) (a_lat_ref pl) (a_position pl) (a_units pl)).
  assert (Ho : reordered_props pl pl') by (split; cbn; auto).
  set (Q := fun n n' : string => exists e e', In e (a_props pl) /\ In e' (a_props pl) /\ mirrored_prop (snd e) (snd e') /\ n = pr_name (snd e) /\ n' = pr_name (snd e')).
  assert (Hq : maq Q pl pl').
  { split; cbn [pl' a_wings a_store a_position a_lat_ref a_long_ref a_units a_cg a_props]; auto.
    - unfold mirror. destruct (a_cg pl) as [x y z]. cbn in *. subst y. now rewrite Ropp_0.
    - assert (I1 : forall e, In e (a_props pl) -> In e (a_props pl)) by auto.
      assert (I2 : forall e, In e l -> In e (a_props pl)) by (intros e He0; apply (Permutation_in _ (Permutation_sym Pl) He0)).
      assert (G : forall u u', Forall2 (fun e e' => mirrored_prop (snd e) (snd e')) u u' ->
        (forall e, In e u -> In e (a_props pl)) -> (forall e, In e u' -> In e (a_props pl)) ->
        Forall2 (fun e e' => Q (pr_name (snd e)) (pr_name (snd e')) /\ mirrored_prop (snd e) (snd e')) u u').
      { clear. induction 1 as [|x x' u u' H0 H1 IH]; intros I1 I2; constructor.
        - split; [|exact H0]. exists x, x'. repeat split; auto; try apply H0; [apply I1|apply I2]; now left.
        - apply IH; intros; [apply I1|apply I2]; now right. }
      now apply G. }
  pose proof (make_machup_mirror Q E pl pl' ltac:(intros; apply Hmem) Hq) as M. rewrite HX in M.
  destruct (make_machup_reorder E pl pl' X Ho HX) as (X' & HX' & B). rewrite HX' in M. cbn [res_rel] in M. destruct M as [[M Nm] Hg].
  assert (Ha : forall i, In i calls -> an (sa_aero i) <> []).
  { intros i Hi. rewrite Forall_forall in Hc. apply (sy_given (Hc i Hi)). }
  pose proof (solve_all_reorder E X X' B calls _ _ Ha (init_reord X X' B) Hr) as Eo.
  assert (Hargs : Forall2 mirrored_args calls calls).
  { clear - Hc. induction Hc as [|i calls Hi Hc IH]; constructor; auto. destruct Hi as [[G1 G2] G3 _].
    assert (S : symmetric_flight (an (sa_aero i)) []).
    { destruct (sa_ctl i); [|exact G3]. destruct G3 as [_ []]. split; auto. }
    split; auto.
    - destruct S. split; auto; lra.
    - destruct (sa_ctl i) as [c|]; [|exact I]. destruct G3 as [G3 []]. repeat split; auto; lra. }
  assert (HS : Forall (fun i => Forall2 (settings_same (sa_prop i)) (mm_props X) (mm_props X')) calls).
  { clear - Nm Hc. eapply Forall_impl; [|exact Hc]. intros i Hi. pose proof (sy_prop Hi) as T.
    induction Nm as [|g g' gs gs' K]; constructor; auto. destruct K as (e & e' & I1 & I2 & Hm & E1 & E2).
    unfold settings_same, local_state. rewrite E1, E2. destruct (sa_prop i) as [d|] eqn:Ed; [|reflexivity].
    rewrite (T d e e' eq_refl I1 I2 Hm). reflexivity. }
  pose proof (session_mirror E pl X X' calls calls Hb Hs He M Hg Hargs HS) as F. rewrite Eo in F. clear - F Hr.
  revert F Hr. generalize (solve_all E X (init_mstate X) calls). intros rs F Hr.
  induction rs as [|r rs IH]; constructor; inversion Hr as [|? ? [f Ef] Hr']; inversion F as [|? ? ? ? F1 F2]; subst; auto.
  exists f. split; [reflexivity|]. destruct F1. unfold no_lateral_loads. lra.
Qed.
