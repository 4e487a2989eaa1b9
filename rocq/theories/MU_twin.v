(** Airplanes with counter-rotating twins: their derivatives in symmetric flight (C85). *)
From Coq Require Import Reals ZArith String Bool Arith Lia Lra List Permutation.
From Verif Require Import Base Num RVec Geometry Api Grid LLModel PropModel Spec_Grid Spec_Geom Spec_LL LL_state LL_R LL_solve
  Grid_facts Grid_thm Mirror LL_props LL_thm LL_thm2 LL_sym Spec_Mirror LL_mirror LL_mirror2 LL_mirror3 MU Spec_MU MU_thm MU_thm2 MU_thm3 MU_thm4 MU_thm5
  MU_thm6 MU_thm7 Spec_MirrorProp Prop_mirror MU_mirror MU_mirror2 MU_order3 Prop_twin Spec_Twin.
Import ListNotations.
Local Open Scope string_scope.
Local Open Scope R_scope.

(** *** The airplane and its mirror image *)
Lemma twin_image E pl X :
  built pl -> mirror_symmetric pl -> vy (a_cg pl) = 0 -> twin_propellers pl ->
  (forall n n', pe_mem (me_prop E) n = pe_mem (me_prop E) n') -> make_machup E pl = Ok X ->
  exists X' sg e, same_but_order X X' /\ mmir E X X' /\
    (forall ps, twin_settings pl ps -> Forall2 (settings_same ps) (mm_props X) (mm_props X')) /\
    (forall g, mm_grid X = Some g -> g_num g = List.length (g_sections g) /\ matched (g_sections g) sg e).
Proof.
  intros Hb Hs Hcg (l & Pl & Fl) Hmem HX.
  set (pl' := MkAirplane (a_name pl) (a_wings pl) (a_store pl) l (a_cg pl) (a_long_ref pl) (a_lat_ref pl) (a_position pl) (a_units pl)).
  assert (Ho : reordered_props pl pl') by (split; cbn; auto).
  set (Q := fun n n' : string => exists e e', In e (a_props pl) /\ In e' (a_props pl) /\ mirrored_prop (snd e) (snd e') /\ n = pr_name (snd e) /\ n' = pr_name (snd e')).
  assert (Hq : maq Q pl pl').
  { split; cbn [pl' a_wings a_store a_position a_lat_ref a_long_ref a_units a_cg a_props]; auto.
    - unfold mirror. destruct (a_cg pl) as [x y z]. cbn in *. subst y. now rewrite Ropp_0.
    - assert (I1 : forall e, In e (a_props pl) -> In e (a_props pl)) by auto.
      assert (I2 : forall e, In e l -> In e (a_props pl)) by (intros e He0; apply (Permutation_in _ (Permutation_sym Pl) He0)).
      assert (G : forall u u', Forall2 (fun e e' => mirrored_prop (snd e) (snd e')) u u' ->
        (forall e, In e u -> In e (a_props pl)) -> (forall e, In e u' -> In e (a_props pl)) ->
        Forall2 (fun e e' => Q (pr_name (snd e)) (pr_name (snd e')) /\ mirrored_prop (snd e) (snd e')) u u').
      { clear. induction 1 as [|x x' u u' H0 H1 IH]; intros I1 I2; constructor.
        - split; [|exact H0]. exists x, x'. repeat split; auto; try apply H0; [apply I1|apply I2]; now left.
        - apply IH; intros; [apply I1|apply I2]; now right. }
      now apply G. }
  pose proof (make_machup_mirror Q E pl pl' ltac:(intros; apply Hmem) Hq) as M. rewrite HX in M.
  destruct (make_machup_reorder E pl pl' X Ho HX) as (X' & HX' & B). rewrite HX' in M. cbn [res_rel] in M. destruct M as [[M Nm] Hg].
  assert (Qg : exists sg e, forall g, mm_grid X = Some g -> g_num g = List.length (g_sections g) /\ matched (g_sections g) sg e).
  { destruct (mm_grid X) as [g|] eqn:Eg; [|exists (fun i => i), (fun _ => 1); intros g K; discriminate K].
    specialize (Hg g eq_refl). destruct (mirror_matched true pl g Hb Hg Hs) as (sg & e & Hma).
    exists sg, e. intros g0 E0. injection E0 as <-. split; [now apply (grid_num true pl)|exact Hma]. }
  destruct Qg as (sg & e & Qg). exists X', sg, e. split; [exact B|]. split; [exact M|]. split; [|exact Qg].
  intros ps T. clear - Nm T. induction Nm as [|g g' gs gs' K]; constructor; auto. destruct K as (e & e' & I1 & I2 & Hm & E1 & E2).
  unfold settings_same, local_state. rewrite E1, E2. destruct ps as [d|] eqn:Ed; [|reflexivity].
  rewrite (T d e e' eq_refl I1 I2 Hm). reflexivity.
Qed.

Lemma props_ran E cg pts a ps gs ss r t : props_solve E cg pts a ps gs ss = (Ok r, t) ->
  exists qs, run_props E cg a ps gs ss = (Ok qs, t).
Proof.
  unfold props_solve, sbind, calc_forces. destruct (run_props E cg a ps gs ss) as [[qs|e] ts]; [|discriminate]. cbv zeta.
  destruct a as [a|]; [|discriminate]. destruct (last_of qs) as [[[[F M] Th] l]|]; [|discriminate].
  destruct pts as [n|]; unfold sret, slift, sget; [destruct (velocity_field (Some a) n); [|discriminate]|];
    (intros K; apply pair_equal_spec in K; destruct K as [_ <-]; eauto).
Qed.
Lemma props_again E cg pts (a : option (aero_state R)) ps gs ss ss' r t : (forall qs, run_props E cg a ps gs ss = (Ok qs, t) -> run_props E cg a ps gs ss' = (Ok qs, t)) ->
  props_solve E cg pts a ps gs ss = (Ok r, t) -> props_solve E cg pts a ps gs ss' = (Ok r, t).
Proof.
  intros Hr K. destruct (props_ran _ _ _ _ _ _ _ _ _ K) as (qs & Hq). revert K. unfold props_solve, sbind, calc_forces. rewrite (Hr qs Hq), Hq. auto.
Qed.

Section Twin.
  Variable E : menv R.
  Variables X X' : machup R.
  Hypothesis B : same_but_order X X'.
  Hypothesis M : mmir E X X'.
  Hypothesis He : exact_solver (me_lsolve E).
  Variables (sg : nat -> nat) (e : nat -> R).
  Hypothesis Hg : forall g, mm_grid X = Some g -> g_num g = List.length (g_sections g) /\ matched (g_sections g) sg e.
  Hypothesis Hne : mm_props X <> [].

  (** the twins remember the same *)
  Definition tw (s : mstate R) : Prop :=
    (forall g, mm_grid X = Some g -> exists k, m_ll s = after (me_lsolve E) g k) /\
    exists ss', reord X X' s (MkM (m_ll s) ss') /\ Forall2 alike (m_ps s) ss'.

  Lemma tw_init : tw (init_mstate X).
  Proof.
    split.
    - intros g Eg. exists []. unfold init_mstate. rewrite Eg. reflexivity.
    - exists (m_ps (init_mstate X')). pose proof (init_reord X X' B) as (R1 & R2 & R3 & R4). split.
      + unfold reord. cbn [m_ll m_ps]. auto.
      + clear - M. unfold init_mstate. cbn [m_ps]. induction (mx_props _ _ _ M) as [|g g' gs gs' G F IH]; constructor; auto.
        rewrite (init_mirror _ _ _ _ G). apply pmir_alike.
  Qed.

  Lemma gtwins : Forall2 (gtwin (me_prop E)) (mm_props X) (mm_props X').
  Proof.
    pose proof (mx_props _ _ _ M) as F. clear - F. induction F as [|g g' gs gs' G F IH]; constructor; [|exact IH]. exact (gmir_twin _ _ _ _ G).
  Qed.

  Lemma parts_props X0 ps a c s q a1 t : mm_props X0 <> [] -> solve_parts E X0 ps a c s = (Ok q, a1, t) ->
    exists r, props_solve (me_prop E) (mm_cg X0) (mm_points X0) (Some a) ps (mm_props X0) (m_ps s) = (Ok r, m_ps t).
  Proof.
    intros H0. unfold solve_parts. destruct (mm_props X0) as [|g gs]; [congruence|].
    destruct (props_solve _ _ _ _ _ _ _) as [[[pt rows]|e0] ss]; [|discriminate]. exists (pt, rows).
    destruct (mm_grid X0) as [gr|].
    - destruct (ll_solve _ _ _ _ _ _ _) as [[r|e0] l]; [|discriminate]. destruct (read_ref l r); [|discriminate]. injection H as <- <- <-. reflexivity.
    - injection H as <- <- <-. reflexivity.
  Qed.
  Lemma parts_ll X0 ps a c s q a1 t g : mm_grid X0 = Some g -> (exists k, m_ll s = after (me_lsolve E) g k) ->
    solve_parts E X0 ps a c s = (Ok q, a1, t) -> exists k, m_ll t = after (me_lsolve E) g k.
  Proof.
    intros Eg [k Hk]. unfold solve_parts. rewrite Eg.
    assert (St : forall b, exists k', snd (ll_solve (me_lsolve E) g (mm_cg X0) "linear" b c (m_ll s)) = after (me_lsolve E) g k').
    { intros b. exists (k ++ [MkSolveCall (mm_cg X0) "linear" b c])%list. unfold after. rewrite fold_left_app. cbn [fold_left].
      fold (after (me_lsolve E) g k). rewrite <- Hk. reflexivity. }
    destruct (mm_props X0) as [|g0 gs].
    - destruct (St (Some a)) as [k' K]. destruct (ll_solve _ _ _ _ _ _ _) as [[r|e0] l]; [|discriminate]. destruct (read_ref l r); [|discriminate].
      intros K0. injection K0 as <- <- <-. exists k'. exact K.
    - destruct (props_solve _ _ _ _ _ _ _) as [[[pt rows]|e0] ss]; [|discriminate]. cbn [m_ll m_ps].
      destruct (St (Some (match rows with Some r => set_local a r | None => a end))) as [k' K].
      destruct (ll_solve _ _ _ _ _ _ _) as [[r|e0] l]; [|discriminate]. destruct (read_ref l r); [|discriminate].
      intros K0. injection K0 as <- <- <-. exists k'. exact K.
  Qed.

  Lemma tw_step ps a c s w pr tot a' t : an a <> [] -> Forall2 (settings_same ps) (mm_props X) (mm_props X') -> tw s ->
    solve_parts E X ps a c s = (Ok (w, pr, tot), a', t) -> tw t.
  Proof.
    intros Na HS [W1 (ss' & W2 & W3)] K. split.
    - intros g Eg. exact (parts_ll X ps a c s _ _ _ g Eg (W1 g Eg) K).
    - destruct (solve_parts_reorder E X X' ps a c s _ w pr tot a' t B W2 K) as (pr' & t' & K' & R1 & R2 & R3 & R4).
      exists (m_ps t'). split; [unfold reord; cbn [m_ll m_ps]; auto|].
      assert (Hne' : mm_props X' <> []).
      { intros Q. pose proof (sb_props _ _ B) as P. rewrite Q in P. apply Permutation_sym, Permutation_nil in P. contradiction. }
      destruct (parts_props X ps a c s _ _ _ Hne K) as (r & P). destruct (props_ran _ _ _ _ _ _ _ _ _ P) as (qs & Hq).
      destruct (parts_props X' ps a c _ _ _ _ Hne' K') as (r' & P'). destruct (props_ran _ _ _ _ _ _ _ _ _ P') as (qs' & Hq').
      cbn [m_ps] in Hq'. destruct W2 as (_ & L & _).
      exact (run_props_scrub (me_prop E) (mm_cg X) (mm_cg X') a ps Na _ _ gtwins HS _ _ _ _ _ _ L W3 Hq Hq').
  Qed.

  (** local_state is overwritten before it is read *)
  Lemma props_plain E0 cg pts (a : aero_state R) ps gs ss : an a <> [] ->
    props_solve E0 cg pts (Some (numbers (an a))) ps gs ss = props_solve E0 cg pts (Some a) ps gs ss.
  Proof.
    intros Na.
    assert (Na' : an (numbers (an a)) <> []) by exact Na.
    assert (Er : forall gs ss, run_props E0 cg (Some (numbers (an a))) ps gs ss = run_props E0 cg (Some a) ps gs ss).
    { assert (Ep : forall g s, run_prop E0 cg (Some (numbers (an a))) ps g s = run_prop E0 cg (Some a) ps g s).
      { intros g s. unfold run_prop, sbind. rewrite (set_aero_given _ s Na), (set_aero_given _ s Na'). reflexivity. }
      clear gs ss. induction gs as [|g gs IH]; intros [|s ss]; cbn [run_props]; auto. rewrite Ep. destruct (run_prop E0 cg (Some a) ps g s) as [[q|e0] t]; [|reflexivity].
      now rewrite IH. }
    unfold props_solve, calc_forces, sbind. rewrite Er.
    assert (Ev : forall n, velocity_field (Some (numbers (an a))) n = velocity_field (Some a) n).
    { intros n. unfold velocity_field, opt_truthy. rewrite (truthy_given a Na), (truthy_given _ Na'). reflexivity. }
    destruct (run_props E0 cg (Some a) ps gs ss) as [[qs|e0] t]; [|reflexivity]. cbv zeta.
    destruct (last_of qs) as [[[[F0 M0] T0] l0]|]; [|reflexivity]. destruct pts as [n|]; unfold slift; [rewrite Ev|]; reflexivity.
  Qed.
  Lemma rows_given E0 cg pts (a : option (aero_state R)) ps gs ss pt rows t : props_solve E0 cg pts a ps gs ss = (Ok (pt, rows), t) ->
    (rows = None <-> pts = None).
  Proof.
    unfold props_solve, sbind. destruct (calc_forces _ _ _ _ _ _) as [[r|e0] u]; [|discriminate].
    destruct pts as [n|]; unfold slift, sget, sret; [destruct (velocity_field a n); [|discriminate]|];
      intros K; injection K as <- <- <-; split; congruence.
  Qed.
  Lemma parts_plain X0 ps a c s q a1 t : mm_props X0 <> [] -> (mm_points X0 = None -> mm_grid X0 = None) -> an a <> [] ->
    solve_parts E X0 ps a c s = (Ok q, a1, t) -> exists a2, solve_parts E X0 ps (numbers (an a)) c s = (Ok q, a2, t).
  Proof.
    intros H0 Hp Na. unfold solve_parts. destruct (mm_props X0) as [|g gs]; [congruence|]. rewrite props_plain by exact Na.
    destruct (props_solve _ _ _ _ _ _ _) as [[[pt rows]|e0] ss] eqn:Es; [|discriminate]. pose proof (rows_given _ _ _ _ _ _ _ _ _ _ Es) as Hr.
    destruct rows as [rows|].
    - change (set_local (numbers (an a)) rows) with (set_local a rows). eauto.
    - rewrite Hp by now apply Hr. intros K. injection K as <- <- <-. eauto.
  Qed.
  Lemma parts_again X0 ps a c l ss ss2 q a1 t : an a <> [] -> List.length ss = List.length (mm_props X0) -> mm_props X0 <> [] -> Forall2 alike ss ss2 ->
    solve_parts E X0 ps a c (MkM l ss) = (Ok q, a1, t) -> solve_parts E X0 ps a c (MkM l ss2) = (Ok q, a1, t).
  Proof.
    intros Na L H0 A. unfold solve_parts. cbn [m_ps m_ll]. destruct (mm_props X0) as [|g gs]; [congruence|].
    destruct (props_solve _ _ _ _ _ _ ss) as [[[pt rows]|e0] ts] eqn:Es; [|discriminate].
    rewrite (props_again _ _ _ _ _ _ ss ss2 _ _ (fun qs => run_props_exact (me_prop E) (mm_cg X0) a ps Na (g :: gs) ss ss2 qs ts L A) Es). auto.
  Qed.
  Lemma parts_fresh X0 ps a c l ss w pr tot a1 t : an a <> [] -> c <> [] -> mm_props X0 <> [] ->
    (forall g, mm_grid X0 = Some g -> exists k, l = after (me_lsolve E) g k) ->
    solve_parts E X0 ps a (Some c) (MkM l ss) = (Ok (w, pr, tot), a1, t) ->
    exists w' t', solve_parts E X0 ps a (Some c) (MkM (m_ll (init_mstate X0)) ss) = (Ok (w', pr, tot), a1, t').
  Proof.
    intros Na Nc H0 Hl. unfold solve_parts. cbn [m_ps m_ll]. destruct (mm_props X0) as [|g gs]; [congruence|].
    destruct (props_solve _ _ _ _ _ _ ss) as [[[pt rows]|e0] ts]; [|discriminate]. cbn [m_ll m_ps].
    set (b := match rows with Some r => set_local a r | None => a end).
    assert (Nb : an b <> []) by (unfold b; destruct rows; exact Na). clearbody b. unfold init_mstate. cbn [m_ll].
    destruct (mm_grid X0) as [gr|].
    - destruct (Hl gr eq_refl) as [k ->].
      assert (Ga : given_aero (Some b)) by (exists b; split; [reflexivity|now left]).
      assert (Gc : given_control (Some c)) by (exists c; auto).
      destruct (history_independent (me_lsolve E) gr k (mm_cg X0) "linear" Ga Gc) as [A1 A2]. cbv zeta in A1, A2. unfold fresh in A1, A2.
      destruct (ll_solve (me_lsolve E) gr (mm_cg X0) "linear" (Some b) (Some c) (after (me_lsolve E) gr k)) as [[r|e0] l1]; [|discriminate].
      cbn [fst snd] in A1, A2. specialize (A2 r eq_refl).
      destruct (ll_solve (me_lsolve E) gr (mm_cg X0) "linear" (Some b) (Some c) (init_ll (g_num gr))) as [r2 l2]. cbn [fst snd] in A1, A2. subst r2.
      assert (Er : read_ref l2 r = read_ref l1 r).
      { unfold observed in A2. apply pair_equal_spec in A2. destruct A2 as [A2 _]. apply pair_equal_spec in A2. destruct A2 as [A2 _].
        apply pair_equal_spec in A2. destruct A2 as [A2 _]. destruct r; cbn [read_ref]; congruence. }
      rewrite Er. destruct (read_ref l1 r) as [w1|]; [|discriminate]. intros K. injection K as <- <- <- <- <-. eauto.
    - intros K. injection K as <- <- <- <- <-. eauto.
  Qed.

  (** symmetric flight from such a state gives no lateral loads *)
  Lemma tw_balance ps a c s w pr tot a' t : an a <> [] -> c <> [] -> symmetric_flight (an a) c ->
    Forall2 (settings_same ps) (mm_props X) (mm_props X') -> tw s ->
    solve_parts E X ps a (Some c) s = (Ok (w, pr, tot), a', t) -> no_lateral_loads tot.
  Proof.
    intros Na Nc Hsy HS [W1 (ss' & W2 & W3)] K.
    assert (Hne' : mm_props X' <> []).
    { intros Q. pose proof (sb_props _ _ B) as P. rewrite Q in P. apply Permutation_sym, Permutation_nil in P. contradiction. }
    assert (Hp : mm_points X = None -> mm_grid X = None).
    { intros Q. pose proof (mx_points _ _ _ M) as [P _]. rewrite Q in P. destruct (mm_grid X); [discriminate|reflexivity]. }
    destruct (parts_plain X ps a (Some c) s _ a' t Hne Hp Na K) as (a2 & K1). clear K.
    set (b := numbers (an a)) in *. assert (Nb : an b <> []) by exact Na.
    destruct (solve_parts_reorder E X X' ps b (Some c) s _ w pr tot a2 t B W2 K1) as (pr' & t' & K2 & _).
    pose proof W2 as (_ & L & L' & _). cbn [m_ps] in L'.
    assert (Es : s = MkM (m_ll s) (m_ps s)) by (destruct s; reflexivity). rewrite Es in K1.
    assert (A : Forall2 alike ss' (map pmir (m_ps s))).
    { clear - W3. induction W3 as [|x y l l' H0 H1 IH]; cbn [map]; constructor; auto. unfold alike in *. rewrite <- (pmir_alike x) in H0. congruence. }
    pose proof (parts_again X' ps b (Some c) (m_ll s) ss' (map pmir (m_ps s)) _ _ _ Nb L' Hne' A K2) as K3.
    destruct (parts_fresh X ps b c (m_ll s) (m_ps s) w pr tot a2 t Nb Nc Hne W1 K1) as (w1 & t1 & K4).
    destruct (parts_fresh X' ps b c (m_ll s) (map pmir (m_ps s)) w pr' tot a2 t' Nb Nc Hne' ltac:(rewrite (mx_grid _ _ _ M); exact W1) K3) as (w2 & t2 & K5).
    assert (Hsf : mirrored_flow b b) by (destruct Hsy; split; cbn [b numbers als an]; auto; lra).
    assert (Hcr : ctl_rel (Some c) (Some c)) by (destruct Hsy; repeat split; auto; lra).
    assert (Hi : minv E X (MkM (m_ll (init_mstate X)) (m_ps s)) (MkM (m_ll (init_mstate X')) (map pmir (m_ps s)))).
    { split; [reflexivity|]. intros g Eg. exists [], []. unfold init_mstate. rewrite (mx_grid _ _ _ M), Eg. cbn [m_ll].
      refine (conj eq_refl (conj eq_refl _)). cbn [control_in_force command_of]. split; unfold entry, dgetd; cbn; change n0 with 0; lra. }
    pose proof (solve_parts_mirror E X X' M He sg e Hg ps b b (Some c) (Some c) _ _ HS Nb Nb Hsf Hcr Hi) as Q.
    rewrite K4, K5 in Q. destruct Q as [Q _]. cbn [ran res_rel snd] in Q. destruct Q. unfold no_lateral_loads. lra.
  Qed.
End Twin.

Lemma even_differences d suffix lat long q h f b : central_differences d suffix lat long q h f b ->
  no_lateral_loads f -> no_lateral_loads b -> zero_derivatives lateral d suffix.
Proof.
  intros Hd (B1 & B2 & B3 & B4) (G1 & G2 & G3 & G4) name Hn. unfold central_differences in Hd.
  assert (Z : forall g len, In (name, (g, len)) (coefficients lat long) -> g f = 0 -> g b = 0 -> dget d (name ++ suffix) = Some 0).
  { intros g len Hin E1 E2. rewrite (Hd _ _ _ Hin), E1, E2. f_equal. unfold Rdiv. ring. }
  cbn [lateral In] in Hn. repeat (destruct Hn as [Hn|Hn]; [subst name|]); [..|contradiction].
  - apply (Z (@FS R) 1); auto. cbn. tauto.
  - apply (Z (@FY R) 1); auto. cbn. tauto.
  - apply (Z (@MX R) lat); auto. cbn. tauto.
  - apply (Z (@MZ R) lat); auto. cbn. tauto.
Qed.

(** *** Sequences of calls *)
Section Session.
  Variable E : menv R.
  Variable pl : airplane R.
  Variable X : machup R.
  Hypothesis Hb : built pl.
  Hypothesis Hs : mirror_symmetric pl.
  Hypothesis Hcg : vy (a_cg pl) = 0.
  Hypothesis Ht : twin_propellers pl.
  Hypothesis Hp : a_props pl <> [].
  Hypothesis He : exact_solver (me_lsolve E).
  Hypothesis Hm : forall n n', pe_mem (me_prop E) n = pe_mem (me_prop E) n'.
  Hypothesis HX : make_machup E pl = Ok X.

  Lemma some_props : mm_props X <> [].
  Proof.
    unfold make_machup in HX. destruct (match a_wings pl with [] => _ | _ => _ end) as [og|e0]; [|discriminate]. cbn [rbind] in HX. cbv zeta in HX.
    destruct (a_props pl) as [|p ps] eqn:Ep; [congruence|]. unfold make_props in HX. rewrite Ep in HX. cbn [map rmap] in HX.
    destruct (rbind (get_units pl) _) as [g|e0]; [|discriminate]. cbn [rbind] in HX. destruct (rmap (fun p => rbind (get_units pl) _) _) as [gs|e0]; [|discriminate]. cbn [rbind] in HX.
    injection HX as <-. discriminate.
  Qed.
  Lemma host_parts ps a c s f a' t : h_solve (host_of E X ps) a c s = (Ok f, a', t) ->
    exists w pr, solve_parts E X ps a c s = (Ok (w, pr, f), a', t).
  Proof.
    cbn [host_of h_solve]. destruct (solve_parts E X ps a c s) as [[r a0] t0]. intros K. injection K as K1 <- <-.
    destruct r as [[[w pr] tot]|e0]; [|discriminate]. cbn [rbind snd] in K1. injection K1 as <-. eauto.
  Qed.

  (** some relation between the propellers is kept by all calls, and balances symmetric flight *)
  Lemma session : exists P : mstate R -> Prop, P (init_mstate X) /\
    (forall ps a c s f a' t, twin_settings pl ps -> an a <> [] -> P s -> h_solve (host_of E X ps) a c s = (Ok f, a', t) -> P t) /\
    (forall ps a c s f a' t, twin_settings pl ps -> an a <> [] -> c <> [] -> symmetric_flight (an a) c -> P s ->
       h_solve (host_of E X ps) a (Some c) s = (Ok f, a', t) -> no_lateral_loads f).
  Proof.
    destruct (twin_image E pl X Hb Hs Hcg Ht Hm HX) as (X' & sg & e & B & M & HS & Hg).
    exists (tw E X X'). split; [now apply tw_init|]. split.
    - intros ps a c s f a' t T Na W K. apply host_parts in K. destruct K as (w & pr & K).
      exact (tw_step E X X' B M some_props ps a c s w pr f a' t Na (HS ps T) W K).
    - intros ps a c s f a' t T Na Nc Hsy W K. apply host_parts in K. destruct K as (w & pr & K).
      exact (tw_balance E X X' B M He sg e Hg some_props ps a c s w pr f a' t Na Nc Hsy (HS ps T) W K).
  Qed.

  Variable ps : option (dict (pval R)).
  Hypothesis T : twin_settings pl ps.
  Notation H := (host_of E X ps).
  Variable P : mstate R -> Prop.
  Hypothesis Pstep : forall a c s f a' t, an a <> [] -> P s -> h_solve H a c s = (Ok f, a', t) -> P t.
  Hypothesis Pbal : forall a c s f a' t, an a <> [] -> c <> [] -> symmetric_flight (an a) c -> P s ->
       h_solve H a (Some c) s = (Ok f, a', t) -> no_lateral_loads f.
  Definition fine (k : call R (mstate R)) : Prop := forall a c f, solved_at k a (Some c) f -> a <> [] -> c <> [] -> symmetric_flight a c -> no_lateral_loads f.
  Lemma performed_fine l : forall s s', P s -> performed H s l s' -> Forall (fun k => an (k_a k) <> [] /\ exists f, k_r k = Ok f) l ->
    P s' /\ Forall fine l.
  Proof.
    induction l as [|k l IH]; intros s s' Ps; cbn [performed].
    - intros -> _. auto.
    - intros [[a K1] K2] F. inversion_clear F as [|? ? [Na [f Kf]] F']. rewrite Kf in K1.
      destruct (IH (k_after k) s' (Pstep _ _ _ _ _ _ Na Ps K1) K2 F') as [I1 I2]. split; [exact I1|]. constructor; [|exact I2].
      intros a0 c f0 (S1 & S2 & S3) N1 N2 Hsy. subst a0. rewrite S2 in K1. assert (f0 = f) by congruence. subst f0.
      exact (Pbal _ _ _ _ _ _ Na N2 Hsy Ps K1).
  Qed.
  Ltac fine_side := first [assumption | apply dset_nil
                     | apply symmetric_dset_a; [assumption|cbn; intuition discriminate]
                     | apply symmetric_dset_c; [assumption|cbn; intuition discriminate]].
  Lemma dset_at k (a : dict R) key x c f : solved_at (S := mstate R) k (dset a key x) c f -> an (k_a k) <> [] /\ exists f, k_r k = Ok f.
  Proof. intros (S1 & S2 & S3). rewrite S1. split; [apply dset_nil|eauto]. Qed.

  Lemma stability_twins w a c d w' : w_aero w = Some a -> an a <> [] -> w_ctl w = Some c -> c <> [] -> P (w_model w) ->
    symmetric_flight (an a) c -> stability_derivatives H w = (Ok d, w') ->
    zero_derivatives lateral d "_a" /\ P (w_model w').
  Proof.
    intros Ea Na Ec Nc Pw Hsy K.
    destruct (stability_given H (host_keeps E X ps) w a d w' Ea ltac:(now left) K) as (r & k1 & k2 & k3 & k4 & b1 & f1 & b2 & f2 & a' & Er & Ew & Pf & S1 & S2 & S3 & S4 & D1 & D2 & A).
    cbv zeta in *. rewrite Ec in S1, S2.
    destruct (performed_fine _ _ _ Pw Pf) as [Pw' F].
    { repeat constructor; eapply dset_at; eauto. }
    inversion_clear F as [|? ? F1 F']. inversion_clear F' as [|? ? F2 _]. split; [|exact Pw'].
    eapply even_differences; [exact D1| |]; [eapply F2; [exact S2|..]|eapply F1; [exact S1|..]]; fine_side.
  Qed.
  Lemma damping_twins w a c d w' : w_aero w = Some a -> an a <> [] -> w_ctl w = Some c -> c <> [] -> P (w_model w) ->
    symmetric_flight (an a) c -> damping_derivatives H w = (Ok d, w') ->
    zero_derivatives lateral d "_qbar" /\ P (w_model w').
  Proof.
    intros Ea Na Ec Nc Pw Hsy K.
    destruct (damping_given H (host_keeps E X ps) w a d w' Ea ltac:(now left) K) as (r & k1 & k2 & k3 & k4 & k5 & k6 & b1 & f1 & b2 & f2 & b3 & f3 & a' & Er & Ew & Pf & S1 & S2 & S3 & S4 & S5 & S6 & D1 & D2 & D3 & A).
    cbv zeta in *. rewrite Ec in S3, S4.
    destruct (performed_fine _ _ _ Pw Pf) as [Pw' F].
    { repeat constructor; eapply dset_at; eauto. }
    inversion_clear F as [|? ? _ F']. inversion_clear F' as [|? ? _ F]. inversion_clear F as [|? ? F3 F']. inversion_clear F' as [|? ? F4 _]. split; [|exact Pw'].
    pose proof (symmetric_restore_a (an a) c "roll_rate" Hsy) as Hr.
    eapply even_differences; [exact D2| |]; [eapply F4; [exact S4|..]|eapply F3; [exact S3|..]]; fine_side.
  Qed.
  Lemma control_twins w a c d w' : w_aero w = Some a -> an a <> [] -> w_ctl w = Some c -> c <> [] -> P (w_model w) ->
    symmetric_flight (an a) c -> control_derivatives H w = (Ok d, w') ->
    zero_derivatives lateral d "_de" /\ zero_derivatives lateral d "_df" /\ P (w_model w').
  Proof.
    intros Ea Na Ec Nc Pw Hsy K.
    destruct (control_given H (host_keeps E X ps) w a c d w' Ea Ec Nc K)
      as (r & k1 & k2 & k3 & k4 & k5 & k6 & k7 & k8 & b1 & f1 & b2 & f2 & b3 & f3 & b4 & f4 & a' & Er & Ew & Pf & Cc & Cr & Ca & _ & D1 & D2 & D3 & D4 & A).
    cbv zeta in *. specialize (Ca ltac:(now left)). cbn [map] in Cc, Cr. injection Cc as C1 C2 C3 C4 C5 C6 C7 C8. injection Cr as R1 R2 R3 R4 R5 R6 R7 R8.
    inversion_clear Ca as [|? ? N1 Ca1]. inversion_clear Ca1 as [|? ? N2 Ca2]. inversion_clear Ca2 as [|? ? N3 Ca3]. inversion_clear Ca3 as [|? ? N4 Ca4].
    inversion_clear Ca4 as [|? ? N5 Ca5]. inversion_clear Ca5 as [|? ? N6 Ca6]. inversion_clear Ca6 as [|? ? N7 Ca7]. inversion_clear Ca7 as [|? ? N8 _].
    destruct (performed_fine _ _ _ Pw Pf) as [Pw' F].
    { repeat constructor; try congruence; eauto. }
    inversion_clear F as [|? ? _ G1]. inversion_clear G1 as [|? ? _ G2]. inversion_clear G2 as [|? ? F3 G3]. inversion_clear G3 as [|? ? F4 G4].
    inversion_clear G4 as [|? ? _ G5]. inversion_clear G5 as [|? ? _ G6]. inversion_clear G6 as [|? ? F7 G7]. inversion_clear G7 as [|? ? F8 _].
    pose proof (symmetric_restore_c (an a) c "aileron" Hsy) as H1. set (c1 := dset c "aileron" (entry c "aileron")) in *.
    assert (E1 : forall k, entry c1 k = entry c k).
    { intros k. unfold c1. rewrite entry_dset. destruct (String.eqb_spec k "aileron") as [->|_]; reflexivity. }
    pose proof (symmetric_restore_c (an a) c1 "elevator" H1) as H2. rewrite E1 in H2. set (c2 := dset c1 "elevator" (entry c "elevator")) in *.
    assert (E2 : forall k, entry c2 k = entry c k).
    { intros k. unfold c2. rewrite entry_dset. destruct (String.eqb_spec k "elevator") as [->|_]; [reflexivity|apply E1]. }
    pose proof (symmetric_restore_c (an a) c2 "rudder" H2) as H3. rewrite E2 in H3. set (c3 := dset c2 "rudder" (entry c "rudder")) in *.
    split; [|split; [|exact Pw']].
    - eapply even_differences; [exact D2| |]; [eapply F4; [split; [exact N4|split; [exact C4|exact R4]]|..]|eapply F3; [split; [exact N3|split; [exact C3|exact R3]]|..]]; fine_side.
    - eapply even_differences; [exact D4| |]; [eapply F8; [split; [exact N8|split; [exact C8|exact R8]]|..]|eapply F7; [split; [exact N7|split; [exact C7|exact R7]]|..]]; fine_side.
  Qed.
End Session.

Section Derivatives.
  Variable E : menv R.
  Variable pl : airplane R.
  Variable X : machup R.
  Hypothesis Hb : built pl.
  Hypothesis Hs : mirror_symmetric pl.
  Hypothesis Hcg : vy (a_cg pl) = 0.
  Hypothesis Ht : twin_propellers pl.
  Hypothesis Hp : a_props pl <> [].
  Hypothesis He : exact_solver (me_lsolve E).
  Hypothesis Hm : forall n n', pe_mem (me_prop E) n = pe_mem (me_prop E) n'.
  Hypothesis HX : make_machup E pl = Ok X.
  Lemma flown_balance s ps a c f a' s' : flown E pl X s -> twin_settings pl ps -> an a <> [] -> c <> [] -> symmetric_flight (an a) c ->
    h_solve (host_of E X ps) a (Some c) s = (Ok f, a', s') -> no_lateral_loads f.
  Proof.
    intros Hf T Na Nc Hsy K. destruct (session E pl X Hb Hs Hcg Ht Hp He Hm HX) as (P & P0 & P1 & P2).
    refine (P2 ps a c s f a' s' T Na Nc Hsy _ K). clear - Hf P0 P1. induction Hf; eauto.
  Qed.
  Lemma C85_lemma file w ps a c d w' : flown E pl X (w_model w) -> twin_settings pl ps ->
    w_aero w = Some a -> an a <> [] -> w_ctl w = Some c -> c <> [] -> symmetric_flight (an a) c ->
    derivatives (host_of E X ps) file w = (Ok (Answer d), w') ->
    zero_derivatives lateral (dv_stab d) "_a" /\ zero_derivatives lateral (dv_cont d) "_de" /\
    zero_derivatives lateral (dv_cont d) "_df" /\ zero_derivatives lateral (dv_damp d) "_qbar".
  Proof.
    intros Hf T Ea Na Ec Nc Hsy K. destruct (session E pl X Hb Hs Hcg Ht Hp He Hm HX) as (P & P0 & P1 & P2).
    assert (Pw : P (w_model w)) by (clear - Hf P0 P1; induction Hf; eauto).
    assert (Q1 : forall a c s f a' t, an a <> [] -> P s -> h_solve (host_of E X ps) a c s = (Ok f, a', t) -> P t) by (intros; eapply P1; eauto).
    assert (Q2 : forall a c s f a' t, an a <> [] -> c <> [] -> symmetric_flight (an a) c -> P s ->
       h_solve (host_of E X ps) a (Some c) s = (Ok f, a', t) -> no_lateral_loads f) by (intros; eapply P2; eauto).
    clear P1 P2 P0.
    destruct (mm_refs X) as [r|] eqn:Er.
    2: { rewrite derivatives_no_wings in K by exact Er. destruct (named file); discriminate. }
    destruct (derivatives_ok (host_of E X ps) file w _ _ r Er K) as (stab & cont & damp & w1 & w2 & w3 & ma & la & K1 & K2 & K3 & M1 & M2 & M3 & _).
    injection M3 as ->. cbn [dv_stab dv_cont dv_damp].
    destruct (stability_twins E X ps P Q1 Q2 w a c stab w1 Ea Na Ec Nc Pw Hsy K1) as [Z1 Pw1].
    destruct (stability_given (host_of E X ps) (host_keeps E X ps) _ _ _ _ Ea ltac:(now left) K1) as (r0 & k1 & k2 & k3 & k4 & b1 & f1 & b2 & f2 & a1 & _ & Ew1 & _ & _ & _ & _ & _ & _ & _ & A1).
    cbv zeta in A1.
    assert (Ea1 : w_aero w1 = Some a1) by now rewrite Ew1. assert (Ec1 : w_ctl w1 = Some c) by (rewrite Ew1; exact Ec).
    assert (S1 : symmetric_flight (an a1) c) by (rewrite A1; exact (rewritten_a (an a) c ["alpha"; "beta"] Hsy)).
    assert (Na1 : an a1 <> []) by (rewrite A1; apply dset_nil).
    destruct (control_twins E X ps P Q1 Q2 w1 a1 c cont w2 Ea1 Na1 Ec1 Nc Pw1 S1 K2) as (Z2 & Z3 & Pw2).
    destruct (control_given (host_of E X ps) (host_keeps E X ps) _ _ _ _ _ Ea1 Ec1 Nc K2)
      as (r2 & j1 & j2 & j3 & j4 & j5 & j6 & j7 & j8 & d1 & e1 & d2 & e2 & d3 & e3 & d4 & e4 & a2 & _ & Ew2 & _ & _ & _ & _ & _ & _ & _ & _ & _ & A2).
    cbv zeta in Ew2, A2.
    assert (Ea2 : w_aero w2 = Some a2) by now rewrite Ew2.
    set (c2 := rewritten c ["aileron"; "elevator"; "rudder"; "flap"]).
    assert (Ec2 : w_ctl w2 = Some c2) by now rewrite Ew2.
    assert (S2 : symmetric_flight (an a2) c2) by (rewrite A2; exact (rewritten_c (an a1) c ["aileron"; "elevator"; "rudder"; "flap"] S1)).
    destruct (damping_twins E X ps P Q1 Q2 w2 a2 c2 damp w3 Ea2 ltac:(rewrite A2; exact Na1) Ec2 ltac:(apply dset_nil) Pw2 S2 K3) as (Z4 & _).
    split; [|auto]. intros name Hn. rewrite dget_dset_other; [now apply Z1|].
    cbn [lateral In] in Hn. repeat (destruct Hn as [<-|Hn]; [discriminate|]). contradiction.
  Qed.
End Derivatives.
