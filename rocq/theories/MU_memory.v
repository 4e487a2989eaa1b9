(** What a MachUp object with propellers remembers of earlier calls (C83). *)
From Coq Require Import Reals ZArith String Bool Arith Lia Lra List.
From Verif Require Import Base Num Geometry Grid LLModel PropModel Spec_Grid Spec_LL Spec_Prop LL_state Prop_state Prop_thm2 Prop_thm5 MU Spec_MU
  MU_thm13 Spec_Mirror Spec_MirrorProp Spec_Memory Prop_memory.
Import ListNotations.
Local Open Scope string_scope.

Section Memory.
  Context {T : Type} {N : num_ops T}.
  Variable E : menv T.
  Hypothesis HM : steady_memory (me_prop E).
  Notation pst := (pstate T).

  Inductive starts (ps : option (dict (pval T))) : list (pgeom T) -> list pst -> list pst -> Prop :=
  | starts_nil : starts ps [] [] []
  | starts_cons g gs s s' ss ss' : same_start ps g s s' -> starts ps gs ss ss' -> starts ps (g :: gs) (s :: ss) (s' :: ss').
  Lemma run_props_sim cg a ps gs ss ss' : starts ps gs ss ss' ->
    fst (run_props (me_prop E) cg a ps gs ss) = fst (run_props (me_prop E) cg a ps gs ss') /\
    (forall qs, fst (run_props (me_prop E) cg a ps gs ss) = Ok qs ->
       map remembered (snd (run_props (me_prop E) cg a ps gs ss)) = map remembered (snd (run_props (me_prop E) cg a ps gs ss'))).
  Proof.
    induction 1 as [|g gs s s' ss ss' H Hs IH]; [split; reflexivity|]. cbn [run_props].
    destruct (run_prop_sim (me_prop E) HM g cg a ps s s' H) as [K1 K2].
    destruct (run_prop (me_prop E) cg a ps g s) as [[q|e] t], (run_prop (me_prop E) cg a ps g s') as [[q'|e'] t']; cbn [fst snd] in K1, K2; try discriminate.
    2:{ injection K1 as <-. split; [reflexivity|discriminate]. }
    injection K1 as <-. specialize (K2 q eq_refl). destruct IH as [J1 J2].
    destruct (run_props (me_prop E) cg a ps gs ss) as [[qs|e] ts], (run_props (me_prop E) cg a ps gs ss') as [[qs'|e'] ts']; cbn [fst snd] in J1, J2; try discriminate.
    2:{ injection J1 as <-. split; [reflexivity|discriminate]. }
    injection J1 as <-. specialize (J2 qs eq_refl). cbn [fst snd map]. split; [reflexivity|]. intros _ _. unfold QF in K2. now rewrite K2, J2.
  Qed.
  Lemma point_velocity_remembered (g : pgeom T) s w : point_velocity g (remembered s) w = point_velocity g s w.
  Proof. reflexivity. Qed.
  Lemma add_slipstream_remembered (g : pgeom T) s s' rows : remembered s = remembered s' -> add_slipstream g s rows = add_slipstream g s' rows.
  Proof.
    intros H. change (add_slipstream g (remembered s) rows = add_slipstream g (remembered s') rows). now rewrite H.
  Qed.
  Lemma slipstreams_remembered (gs : list (pgeom T)) : forall ss ss' rows, map remembered ss = map remembered ss' -> slipstreams gs ss rows = slipstreams gs ss' rows.
  Proof.
    induction gs as [|g gs IH]; intros [|s ss] [|s' ss'] rows H; try discriminate; try reflexivity.
    cbn [map] in H. assert (H1 : remembered s = remembered s') by congruence. assert (H2 : map remembered ss = map remembered ss') by congruence.
    cbn [slipstreams]. rewrite (add_slipstream_remembered g s s' rows H1). now apply IH.
  Qed.
  Lemma props_solve_sim cg n a ps gs ss ss' : starts ps gs ss ss' ->
    fst (props_solve (me_prop E) cg n a ps gs ss) = fst (props_solve (me_prop E) cg n a ps gs ss') /\
    (forall r, fst (props_solve (me_prop E) cg n a ps gs ss) = Ok r ->
       map remembered (snd (props_solve (me_prop E) cg n a ps gs ss)) = map remembered (snd (props_solve (me_prop E) cg n a ps gs ss'))).
  Proof.
    intros H. destruct (run_props_sim cg a ps gs ss ss' H) as [K1 K2]. unfold props_solve, sbind, calc_forces.
    destruct (run_props (me_prop E) cg a ps gs ss) as [[qs|e] ts], (run_props (me_prop E) cg a ps gs ss') as [[qs'|e'] ts']; cbn [fst snd] in K1, K2; try discriminate.
    2:{ injection K1 as <-. split; [reflexivity|discriminate]. }
    injection K1 as <-. specialize (K2 qs eq_refl). destruct a as [b|]; [|split; [reflexivity|discriminate]].
    destruct (last_of qs) as [[[[x y] z] l]|]; [|split; [reflexivity|discriminate]].
    destruct n as [n|]; [|split; [reflexivity|intros _ _; exact K2]].
    unfold slift, sget, sret. destruct (velocity_field _ _) as [rows|e]; [|split; [reflexivity|discriminate]]. cbn [fst snd].
    rewrite (slipstreams_remembered gs ts ts' rows K2). split; [reflexivity|intros _ _; exact K2].
  Qed.

  (** *** reachable states *)
  Variable X : machup T.
  Lemma ll_reached g h : mm_grid X = Some g -> exists k, m_ll (mu_after E X h) = after (me_lsolve E) g k.
  Proof.
    intros Hg. unfold mu_after.
    assert (K0 : exists k, m_ll (init_mstate X) = after (me_lsolve E) g k).
    { exists []. unfold init_mstate. rewrite Hg. reflexivity. }
    revert K0. generalize (init_mstate X). induction h as [|c h IH]; intros s [k Hk]; [exists k; exact Hk|]. cbn [fold_left]. apply IH.
    assert (St : forall a, exists k', snd (ll_solve (me_lsolve E) g (mc_cg c) "linear" a (mc_ctl c) (m_ll s)) = after (me_lsolve E) g k').
    { intros a. exists (k ++ [MkSolveCall (mc_cg c) "linear" a (mc_ctl c)])%list. unfold after. rewrite fold_left_app. cbn [fold_left].
      fold (after (me_lsolve E) g k). rewrite <- Hk. reflexivity. }
    cbn [host_of h_solve]. unfold solve_parts. cbn [with_cg mm_grid mm_props mm_cg mm_points]. rewrite Hg.
    assert (Fin : forall a pr ps, exists k', m_ll (snd (match ll_solve (me_lsolve E) g (mc_cg c) "linear" (Some a) (mc_ctl c) (m_ll s) with
          | (Err e, l) => (Err e, a, MkM l ps)
          | (Ok r, l) => match read_ref l r with None => (Err AttributeError, a, MkM l ps)
              | Some w => (Ok (Some w, pr, add_fm (match pr with Some p => pt_fm p | None => zero_fm end) (r_total w)), a, MkM l ps) end end)) = after (me_lsolve E) g k').
    { intros a pr ps. destruct (St (Some a)) as [k' K]. exists k'. destruct (ll_solve _ _ _ _ _ _ _) as [[r|e] l]; [|exact K].
      destruct (read_ref l r); exact K. }
    destruct (mm_props X) as [|g0 gs].
    - destruct (Fin (mc_aero c) None (m_ps s)) as [k' K]. exists k'. rewrite <- K. destruct (ll_solve _ _ _ _ _ _ _) as [[r|e] l]; [|reflexivity]. destruct (read_ref l r); reflexivity.
    - destruct (props_solve _ _ _ _ _ _ _) as [[[pt rows]|e] ss]; [|exists k; exact Hk]. cbn [m_ll m_ps].
      destruct (Fin (match rows with Some r => set_local (mc_aero c) r | None => mc_aero c end) (Some pt) ss) as [k' K]. exists k'. rewrite <- K.
      destruct (ll_solve _ _ _ _ _ _ _) as [[r|e] l]; [|reflexivity]. destruct (read_ref l r); reflexivity.
  Qed.
  Lemma wings_any g h h' cg a c : mm_grid X = Some g -> given a -> given_control c ->
    let call := ll_solve (me_lsolve E) g cg "linear" (Some a) c in
    fst (call (m_ll (mu_after E X h))) = fst (call (m_ll (mu_after E X h'))) /\
    (forall r, fst (call (m_ll (mu_after E X h))) = Ok r ->
       observed g (snd (call (m_ll (mu_after E X h)))) = observed g (snd (call (m_ll (mu_after E X h'))))).
  Proof.
    intros Hg Ha Hc call. destruct (ll_reached g h Hg) as [k ->], (ll_reached g h' Hg) as [k' ->].
    assert (Ga : given_aero (Some a)) by (exists a; auto).
    destruct (history_independent (me_lsolve E) g k cg "linear" Ga Hc) as [A1 A2].
    destruct (history_independent (me_lsolve E) g k' cg "linear" Ga Hc) as [B1 B2]. cbv zeta in *. fold call in A1, A2, B1, B2.
    split; [congruence|]. intros r Hr. rewrite (A2 r Hr). symmetry. apply (B2 r). congruence.
  Qed.
  Lemma ps_reached h : List.length (m_ps (mu_after E X h)) = List.length (mm_props X).
  Proof.
    unfold mu_after. assert (K0 : List.length (m_ps (init_mstate X)) = List.length (mm_props X)) by (unfold init_mstate; cbn [m_ps]; apply map_length).
    revert K0. generalize (init_mstate X). induction h as [|c h IH]; intros s Hs; [exact Hs|]. cbn [fold_left]. apply IH. rewrite <- Hs.
    cbn [host_of h_solve]. unfold solve_parts. cbn [with_cg mm_grid mm_props mm_cg mm_points]. destruct (mm_props X) as [|g0 gs].
    - destruct (mm_grid X) as [g|]; [|reflexivity]. destruct (ll_solve _ _ _ _ _ _ _) as [[r|e] l]; [|reflexivity]. destruct (read_ref l r); reflexivity.
    - pose proof (props_solve_length (me_prop E) (mc_cg c) (mm_points X) (Some (mc_aero c)) (mc_ps c) (g0 :: gs) (m_ps s)) as K.
      destruct (props_solve _ _ _ _ _ _ _) as [[[pt rows]|e] ss]; [|exact K]. cbn [m_ll m_ps].
      destruct (mm_grid X) as [g|]; [|exact K]. destruct (ll_solve _ _ _ _ _ _ _) as [[r|e] l]; [|exact K]. destruct (read_ref l r); exact K.
  Qed.
  Lemma starts_of ps gs : forall ss ss', List.length ss = List.length gs -> List.length ss' = List.length gs ->
    Forall (fun q => same_start ps (fst q) (fst (snd q)) (snd (snd q))) (combine gs (combine ss ss')) -> starts ps gs ss ss'.
  Proof.
    induction gs as [|g gs IH]; intros [|s ss] [|s' ss'] H H' F; try discriminate; [constructor|]. cbn [combine] in F. inversion_clear F. constructor; auto.
  Qed.
  Definition wing_reading (s : mstate T) := option_map (fun g => observed g (m_ll s)) (mm_grid X).
  Lemma observed_results (g : grid T) s s' : observed g s = observed g s' -> l_results s = l_results s'.
  Proof. unfold observed. intros H. congruence. Qed.
  Lemma read_ref_results (s s' : ll_state T) r : l_results s = l_results s' -> read_ref s r = read_ref s' r.
  Proof. intros H. destruct r; unfold read_ref; try rewrite H; reflexivity. Qed.
  Lemma solve_parts_sim ps a c h h' : given a -> given_control c ->
    Forall (fun q => same_start ps (fst q) (fst (snd q)) (snd (snd q)))
           (combine (mm_props X) (combine (m_ps (mu_after E X h)) (m_ps (mu_after E X h')))) ->
    let p := solve_parts E X ps a c (mu_after E X h) in let p' := solve_parts E X ps a c (mu_after E X h') in
    fst (fst p) = fst (fst p') /\
    (forall r, fst (fst p) = Ok r -> map remembered (m_ps (snd p)) = map remembered (m_ps (snd p')) /\ wing_reading (snd p) = wing_reading (snd p')).
  Proof.
    intros Ha Hc HS. cbv zeta. apply starts_of in HS; [|apply ps_reached|apply ps_reached].
    assert (Fin : forall a ss ss' pr, given a -> map remembered ss = map remembered ss' ->
      let run (l0 : ll_state T) (ss : list pst) := match mm_grid X with
        | None => (Ok (None, pr, add_fm (match pr with Some p => pt_fm p | None => zero_fm end) zero_fm), a, MkM l0 ss)
        | Some g =>
          match ll_solve (me_lsolve E) g (mm_cg X) "linear" (Some a) c l0 with
          | (Err e, l) => (Err e, a, MkM l ss)
          | (Ok r, l) => match read_ref l r with
              | None => (Err AttributeError, a, MkM l ss)
              | Some w => (Ok (Some w, pr, add_fm (match pr with Some p => pt_fm p | None => zero_fm end) (r_total w)), a, MkM l ss) end end end in
      let p := run (m_ll (mu_after E X h)) ss in let p' := run (m_ll (mu_after E X h')) ss' in
      fst (fst p) = fst (fst p') /\
      (forall r, fst (fst p) = Ok r -> map remembered (m_ps (snd p)) = map remembered (m_ps (snd p')) /\ wing_reading (snd p) = wing_reading (snd p'))).
    { clear HS. intros b ss ss' pr Hb Hr. cbv zeta. unfold wing_reading. destruct (mm_grid X) as [g|] eqn:Hg; [|split; [reflexivity|intros _ _; split; [exact Hr|reflexivity]]].
      destruct (wings_any g h h' (mm_cg X) b c Hg Hb Hc) as [K1 K2].
      destruct (ll_solve (me_lsolve E) g (mm_cg X) "linear" (Some b) c (m_ll (mu_after E X h))) as [[r|e] l];
      destruct (ll_solve (me_lsolve E) g (mm_cg X) "linear" (Some b) c (m_ll (mu_after E X h'))) as [[r'|e'] l']; cbn [fst snd] in K1, K2; try discriminate.
      2:{ injection K1 as <-. split; [reflexivity|discriminate]. }
      assert (r = r') by congruence. subst r'. specialize (K2 r eq_refl). rewrite (read_ref_results l l' r (observed_results _ _ _ K2)).
      destruct (read_ref l' r); cbn [fst snd m_ps m_ll option_map]; (split; [reflexivity|]); [|discriminate]. intros _ _. split; [exact Hr|]. now rewrite K2. }
    unfold solve_parts. destruct (mm_props X) as [|g0 gs] eqn:Hp.
    - assert (HR : map remembered (m_ps (mu_after E X h)) = map remembered (m_ps (mu_after E X h'))) by (inversion HS; reflexivity).
      pose proof (Fin a (m_ps (mu_after E X h)) (m_ps (mu_after E X h')) None Ha) as K.
      specialize (K HR). cbv zeta in K. destruct (mm_grid X); [exact K|].
      destruct (mu_after E X h), (mu_after E X h'); exact K.
    - destruct (props_solve_sim (mm_cg X) (mm_points X) (Some a) ps _ _ _ HS) as [K1 K2].
      destruct (props_solve (me_prop E) (mm_cg X) (mm_points X) (Some a) ps (g0 :: gs) (m_ps (mu_after E X h))) as [[[pt rows]|e] ss];
      destruct (props_solve (me_prop E) (mm_cg X) (mm_points X) (Some a) ps (g0 :: gs) (m_ps (mu_after E X h'))) as [[[pt' rows']|e'] ss']; cbn [fst snd] in K1, K2; try discriminate.
      2:{ injection K1 as <-. split; [reflexivity|discriminate]. }
      assert (pt = pt') by congruence. assert (rows = rows') by congruence. subst pt' rows'. specialize (K2 _ eq_refl). cbn [m_ll m_ps].
      apply (Fin (match rows with Some r => set_local a r | None => a end) ss ss' (Some pt)); [|exact K2].
      destruct rows; [right; discriminate|exact Ha].
  Qed.
  (** one call to solve after two histories *)
  Lemma solve_sim ps file a c h h' fs l l' : given a -> given_control c ->
    Forall (fun q => same_start ps (fst q) (fst (snd q)) (snd (snd q)))
           (combine (mm_props X) (combine (m_ps (mu_after E X h)) (m_ps (mu_after E X h')))) ->
    let (r, w) := mu_solve E X ps file (MkW (Some a) c (mu_after E X h) fs l) in
    let (r', w') := mu_solve E X ps file (MkW (Some a) c (mu_after E X h') fs l') in
    r' = r /\ w_files w' = w_files w /\
    (forall f, r = Ok f -> map remembered (m_ps (w_model w')) = map remembered (m_ps (w_model w)) /\ wing_reading (w_model w') = wing_reading (w_model w)).
  Proof.
    intros Ha Hc HS. pose proof (solve_parts_sim ps a c h h' Ha Hc HS) as K. cbv zeta in K.
    destruct (solve_given E X ps file (MkW (Some a) c (mu_after E X h) fs l) a eq_refl Ha) as (r & b & s & P & _ & _ & A3 & A4 & A5).
    destruct (solve_given E X ps file (MkW (Some a) c (mu_after E X h') fs l') a eq_refl Ha) as (r' & b' & s' & P' & _ & _ & B3 & B4 & B5).
    cbn [w_ctl w_model w_files] in *. rewrite P, P' in K. cbn [fst snd] in K. destruct K as [K1 K2]. subst r'.
    destruct (mu_solve E X ps file (MkW (Some a) c (mu_after E X h) fs l)) as [r0 w0].
    destruct (mu_solve E X ps file (MkW (Some a) c (mu_after E X h') fs l')) as [r1 w1]. cbn [fst snd] in *.
    split; [congruence|]. split; [now rewrite A5, B5|]. rewrite A3, B3. intros f Hf. rewrite A4 in Hf. destruct r as [q|e]; [|discriminate].
    destruct (K2 q eq_refl) as [K3 K4]. split; symmetry; assumption.
  Qed.
  Lemma solve_extends ps file a c h fs l : given a ->
    w_model (snd (mu_solve E X ps file (MkW (Some a) c (mu_after E X h) fs l))) = mu_after E X (h ++ [MkMuCall (mm_cg X) ps a c]).
  Proof.
    intros Ha. destruct (solve_given E X ps file (MkW (Some a) c (mu_after E X h) fs l) a eq_refl Ha) as (r & b & s & P & _ & _ & A3 & _).
    rewrite A3. cbn [w_ctl w_model] in P. unfold mu_after at 1. rewrite fold_left_app.
    change (s = snd (h_solve (host_of E (with_cg (mm_cg X) X) ps) a c (mu_after E X h))).
    replace (with_cg (mm_cg X) X) with X by (destruct X; reflexivity). unfold host_of, h_solve. rewrite P. reflexivity.
  Qed.
End Memory.

Lemma remembered_start {T} {N : num_ops T} ps (gs : list (pgeom T)) : forall ss ss', map remembered ss' = map remembered ss ->
  Forall (fun q => same_start ps (fst q) (fst (snd q)) (snd (snd q))) (combine gs (combine ss ss')).
Proof.
  induction gs as [|g gs IH]; intros [|s ss] [|s' ss'] H; try discriminate; try constructor; cbn [map] in H.
  - cbn [fst snd]. assert (K : remembered s' = remembered s) by congruence. split; [|right].
    + change (p_ei (remembered s') = p_ei (remembered s)). now rewrite K.
    + change (p_n (remembered s') = p_n (remembered s)). now rewrite K.
  - apply IH. congruence.
Qed.
Lemma solves_sim (E : menv R) X calls : steady_memory (me_prop E) -> forall i h h',
  Forall (fun i => given (sa_aero i) /\ given_control (sa_ctl i)) (i :: calls) ->
  Forall (fun q => same_start (sa_prop i) (fst q) (fst (snd q)) (snd (snd q)))
         (combine (mm_props X) (combine (m_ps (mu_after E X h)) (m_ps (mu_after E X h')))) ->
  Forall returned (solve_all E X (mu_after E X h) (i :: calls)) ->
  solve_all E X (mu_after E X h') (i :: calls) = solve_all E X (mu_after E X h) (i :: calls).
Proof.
  intros HM. induction calls as [|j calls IH]; intros i h h' HC HS HR; inversion_clear HC as [|? ? [Ha Hc] HC'].
  - cbn [solve_all]. pose proof (solve_sim E HM X (sa_prop i) None (sa_aero i) (sa_ctl i) h h' [] [] [] Ha Hc HS) as K.
    destruct (mu_solve _ _ _ _ _) as [r w], (mu_solve _ _ _ _ _) as [r' w']. destruct K as [-> _]. reflexivity.
  - remember (j :: calls) as rest eqn:Er. cbn [solve_all] in *.
    pose proof (solve_sim E HM X (sa_prop i) None (sa_aero i) (sa_ctl i) h h' [] [] [] Ha Hc HS) as K.
    pose proof (solve_extends E X (sa_prop i) None (sa_aero i) (sa_ctl i) h [] [] Ha) as M.
    pose proof (solve_extends E X (sa_prop i) None (sa_aero i) (sa_ctl i) h' [] [] Ha) as M'.
    destruct (mu_solve _ _ _ _ (MkW _ _ (mu_after E X h) _ _)) as [r w]. destruct (mu_solve _ _ _ _ (MkW _ _ (mu_after E X h') _ _)) as [r' w'].
    cbn [fst snd] in M, M'. destruct K as (-> & _ & K). inversion_clear HR as [|? ? [f Hf] HR']. destruct (K f Hf) as [K1 _].
    rewrite M, M' in K1 |- *. rewrite M in HR'. subst rest. f_equal. apply IH; auto. now apply remembered_start.
Qed.

(** *** A rotation rate of zero stays *)
Local Open Scope R_scope.
Lemma flow_set (a : aero_state R) (s : pstate R) : full_flow a -> exists s1, p_set_aero (Some a) s = (Ok tt, s1) /\ p_n s1 = p_n s.
Proof.
  intros [HV Hr]. unfold p_set_aero, opt_truthy. replace (aero_truthy a) with true.
  - destruct (dget (an a) "V_mag") as [V|]; [|congruence]. destruct (dget (an a) "rho") as [rho|]; [|congruence]. eexists. split; reflexivity.
  - symmetry. unfold aero_truthy. apply Bool.orb_true_iff. left. unfold dtruthy. destruct (an a); [now cbn in HV|reflexivity].
Qed.
Lemma zero_division {A} (x y : R) (k : R -> st (pstate R) A) s : sbind (slift (pydiv x (0 * y)%R)) k s = (Err ZeroDivisionError, s).
Proof.
  unfold sbind, slift, pydiv. rnum. rewrite Rmult_0_l. replace (Reqb 0 0) with true by (symmetry; now apply Reqb_true). reflexivity.
Qed.
Lemma zero_rate_set E cg a ps (g : pgeom R) l s : full_flow a -> setting_of ps (pg_name g) = Some (PDict l) ->
  dget l "J" = None -> dget l "rot_per_sec" = Some (PNum 0) ->
  exists s', run_prop E cg (Some a) ps g s = (Err ZeroDivisionError, s') /\ p_n s' = 0.
Proof.
  intros Ha Hs H1 H2. unfold run_prop. destruct (flow_set a s Ha) as (s1 & K & _). unfold sbind at 1. rewrite K. clear K.
  rewrite (p_set_prop_same (pg_d g) _ _ (local_setting ps (pg_name g))), Hs. unfold sbind at 1. unfold p_set_prop.
  destruct l as [|e0 l0]; [discriminate H2|]. rewrite H1, H2. eexists.
  split; [unfold sbind at 1; unfold smod at 1; unfold sbind at 1; unfold slift at 1; unfold vnum; unfold sbind at 1; unfold smod at 1; unfold sbind at 1; unfold sget at 1; rnum; rewrite zero_division; reflexivity|reflexivity].
Qed.
Lemma zero_rate_kept E cg a ps (g : pgeom R) l s : full_flow a -> setting_of ps (pg_name g) = Some (PDict l) ->
  by_power (pg_motor g <> None) l -> p_n s = 0 ->
  exists s', run_prop E cg (Some a) ps g s = (Err ZeroDivisionError, s') /\ p_n s' = 0.
Proof.
  intros Ha Hs (H1 & H2 & HP) Hn. unfold run_prop. destruct (flow_set a s Ha) as (s1 & K & K1). unfold sbind at 1. rewrite K. clear K.
  rewrite (p_set_prop_same (pg_d g) _ _ (local_setting ps (pg_name g))), Hs. unfold sbind at 1. unfold p_set_prop.
  destruct l as [|e0 l0]; [destruct HP as [[P HP]|(_ & _ & t & HP)]; discriminate HP|]. rewrite H1, H2. rewrite <- K1 in Hn. 
  destruct HP as [[P ->]|(-> & Hm & t & ->)].
  - unfold sbind at 1; unfold smod at 1; unfold sbind at 1; unfold slift at 1; unfold vnum; unfold smod at 1. cbn [set_op p_n]. rewrite Hn.
    unfold p_calc_forces. unfold sbind at 1. unfold sget at 1. cbn [set_op p_power p_throttle].
    unfold sbind at 1. unfold state_from_power. unfold sbind at 1. unfold sget at 1. cbn [set_op p_power p_throttle].
    unfold sbind at 1. cbn [set_op p_n]. rewrite zero_division. eexists. split; reflexivity.
  - unfold sbind at 1; unfold smod at 1; unfold sbind at 1; unfold slift at 1; unfold vnum; unfold smod at 1. cbn [set_op p_n p_power]. rewrite Hn.
    unfold p_calc_forces. unfold sbind at 1. unfold sget at 1. cbn [set_op p_power p_throttle].
    unfold sbind at 1. unfold state_from_power. unfold sbind at 1. unfold sget at 1. cbn [set_op p_power p_throttle].
    destruct (pg_motor g); [|congruence]. unfold sbind at 1. cbn [set_op p_n]. rewrite zero_division. eexists. split; reflexivity.
Qed.
(** an exception of the first propeller is the outcome of the call *)
Lemma first_raises E X g gs s ss l ps a c e s' : mm_props X = g :: gs -> given a ->
  run_prop (me_prop E) (mm_cg X) (Some a) ps g s = (Err e, s') ->
  let (r, w) := mu_solve E X ps None (MkW (Some a) c (MkM (T := R) l (s :: ss)) [] []) in r = Err e /\ w_model w = MkM l (s' :: ss).
Proof.
  intros Hp Ha H. destruct (solve_given E X ps None (MkW (Some a) c (MkM l (s :: ss)) [] []) a eq_refl Ha) as (r & b & t & P & _ & _ & A3 & A4 & _).
  cbn [w_ctl w_model] in P. unfold solve_parts in P. rewrite Hp in P. 
  assert (K : props_solve (me_prop E) (mm_cg X) (mm_points X) (Some a) ps (g :: gs) (s :: ss) = (Err e, s' :: ss)).
  { unfold props_solve, calc_forces. unfold sbind at 1 2. cbn [run_props]. rewrite H. reflexivity. }
  cbn [m_ps] in P. rewrite K in P.
  cbn [m_ll] in P. apply pair_equal_spec in P. destruct P as [P P3]. apply pair_equal_spec in P. destruct P as [P1 P2]. subst r t.
  destruct (mu_solve _ _ _ _ _) as [r w]. cbn [fst snd] in *. subst r. split; [reflexivity|exact A3].
Qed.
Lemma full_given (a : aero_state R) : full_flow a -> given a.
Proof. intros [H _]. left. destruct (an a); [now cbn in H|discriminate]. Qed.
Lemma zero_rate_stays E X g gs calls : mm_props X = g :: gs ->
  Forall (fun i => full_flow (sa_aero i) /\ exists l, setting_of (sa_prop i) (pg_name g) = Some (PDict l) /\ by_power (pg_motor g <> None) l) calls ->
  forall l s ss, p_n s = 0 -> solve_all E X (MkM l (s :: ss)) calls = map (fun _ => Err ZeroDivisionError) calls.
Proof.
  intros Hp. induction 1 as [|i calls (Ha & d & Hd & Hw) HF IH]; intros l s ss Hn; [reflexivity|]. cbn [solve_all map].
  destruct (zero_rate_kept (me_prop E) (mm_cg X) _ _ g d s Ha Hd Hw Hn) as (s' & K & Kn).
  pose proof (first_raises E X g gs s ss l (sa_prop i) (sa_aero i) (sa_ctl i) _ s' Hp (full_given _ Ha) K) as Q.
  destruct (mu_solve _ _ _ _ _) as [r w]. destruct Q as [-> ->]. f_equal. now apply IH.
Qed.
Lemma zero_rate_sticks E X g gs h i calls : mm_props X = g :: gs -> full_flow (sa_aero i) ->
  (exists l, setting_of (sa_prop i) (pg_name g) = Some (PDict l) /\ dget l "J" = None /\ dget l "rot_per_sec" = Some (PNum 0)) ->
  Forall (fun i => full_flow (sa_aero i) /\ exists l, setting_of (sa_prop i) (pg_name g) = Some (PDict l) /\ by_power (pg_motor g <> None) l) calls ->
  solve_all E X (mu_after E X h) (i :: calls) = map (fun _ => Err ZeroDivisionError) (i :: calls).
Proof.
  intros Hp Ha (l & Hl & H1 & H2) HF. cbn [solve_all map]. pose proof (ps_reached E X h) as L. rewrite Hp in L.
  destruct (mu_after E X h) as [ll [|s ss]] eqn:Em; [discriminate L|].
  destruct (zero_rate_set (me_prop E) (mm_cg X) _ _ g l s Ha Hl H1 H2) as (s' & K & Kn).
  pose proof (first_raises E X g gs s ss ll (sa_prop i) (sa_aero i) (sa_ctl i) _ s' Hp (full_given _ Ha) K) as Q.
  destruct (mu_solve _ _ _ _ _) as [r w]. destruct Q as [-> ->]. f_equal. now apply (zero_rate_stays E X g gs).
Qed.
