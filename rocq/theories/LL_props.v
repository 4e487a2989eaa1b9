(** Properties of a returning wing solve (C18-C22, C28, C30, C61). *)
From Coq Require Import Reals ZArith String Bool Arith Lia Lra List.
From Verif Require Import Base Num RVec Geometry Grid LLModel Spec_Grid Spec_LL LL_state LL_R LL_solve Grid_thm.
Import ListNotations.
Local Open Scope R_scope.

Lemma cells_of_nth (secs : list (section R)) : forall v rho d e i,
  List.length v = List.length secs -> List.length rho = List.length secs ->
  List.length d = List.length secs -> List.length e = List.length secs ->
  nth_error (cells_of secs v rho d e) i =
  match nth_error secs i, nth_error v i, nth_error rho i, nth_error d i, nth_error e i with
  | Some s, Some v, Some r, Some d, Some e => Some (MkCell s v r d e)
  | _, _, _, _, _ => None
  end.
Proof.
  induction secs as [|s secs IH]; intros [|v0 v] [|r0 rho] [|d0 d] [|e0 e] i H1 H2 H3 H4; try discriminate.
  - destruct i; reflexivity.
  - destruct i; simpl in *; auto.
Qed.
Lemma cells_of_length (secs : list (section R)) : forall v rho d e,
  List.length v = List.length secs -> List.length rho = List.length secs ->
  List.length d = List.length secs -> List.length e = List.length secs ->
  List.length (cells_of secs v rho d e) = List.length secs.
Proof.
  induction secs as [|s secs IH]; intros [|v0 v] [|r0 rho] [|d0 d] [|e0 e] H1 H2 H3 H4; try discriminate;
    simpl in *; auto.
Qed.

Lemma same_length_nth {A B} (l : list A) (l' : list B) i x : List.length l' = List.length l ->
  nth_error l i = Some x -> exists y, nth_error l' i = Some y.
Proof.
  intros E H. assert (Hi : (i < List.length l')%nat) by (rewrite E; apply nth_error_Some; congruence).
  apply nth_error_Some in Hi. destruct (nth_error l' i); eauto; congruence.
Qed.

Lemma cells_of_maps (secs : list (section R)) v rho d e :
  List.length v = List.length secs -> List.length rho = List.length secs ->
  List.length d = List.length secs -> List.length e = List.length secs ->
  let cs := cells_of secs v rho d e in
  map (@c_sec R) cs = secs /\ map (@c_v R) cs = v /\ map (@c_rho R) cs = rho /\
  map (@c_delta R) cs = d /\ map (@c_eff R) cs = e.
Proof.
  revert v rho d e.
  induction secs as [|s secs IH]; intros [|v0 v] [|r0 rho] [|d0 d] [|e0 e] H1 H2 H3 H4; try discriminate;
    cbv zeta in *; cbn [cells_of map c_sec c_v c_rho c_delta c_eff].
  - auto.
  - cbn [List.length] in *. destruct (IH v rho d e) as (A & B & C & D & E); try lia.
    rewrite A, B, C, D, E. auto.
Qed.

(** The loads of the sections in operation. *)
Definition loads_of (u : vec3 R) (cmd : section R -> R) (cs : list (cell R)) (gam : list R) : list load :=
  mapi (fun i c => MkLoad (c_sec c) (c_v c) (c_rho c) (cmd (c_sec c)) (nth i gam 0) (wash u cs gam i c)) cs.

Definition sol_of (cg : vec3 R) (x : load) : cell_sol R :=
  MkSol (ld_vel x) (ld_alpha x) (ld_cl x) (ld_cd x) (ld_cm x) (vortex_force x) (parasitic_force x)
        (vortex_moment cg x) (parasitic_moment cg x).

Lemma Rdec_5_1 : Rdec 5 1 = / 2.
Proof. unfold Rdec. simpl. lra. Qed.

Lemma solve_cell_load cg y w c cmd : c_delta c = degrees cmd ->
  solve_cell cg y (vadd (c_v c) w) c = sol_of cg (MkLoad (c_sec c) (c_v c) (c_rho c) cmd y w).
Proof.
  intros Hd. set (x := MkLoad (c_sec c) (c_v c) (c_rho c) cmd y w).
  unfold solve_cell. cbv zeta. rewrite Hd.
  change (vadd (c_v c) w) with (ld_vel x).
  assert (Ea : natan2 (vdot (ld_vel x) (s_un (c_sec c))) (vdot (ld_vel x) (s_ua (c_sec c))) = ld_alpha x) by reflexivity.
  rewrite Ea. rewrite section_cl_spec.
  change (lift_coefficient (c_sec c) (ld_alpha x) 0) with (ld_cl x).
  rewrite section_cd_spec. change (drag_coefficient (c_sec c) (ld_cl x) cmd) with (ld_cd x).
  rewrite section_cm_spec. change (moment_coefficient (c_sec c) (ld_alpha x) cmd) with (ld_cm x).
  assert (Ef : vscale (nmul (c_rho c) y) (vcross (ld_vel x) (vsub (s_r2 (c_sec c)) (s_r1 (c_sec c)))) = vortex_force x) by reflexivity.
  rewrite Ef.
  assert (Ep : vdivs (vscale (nmul (nmul (nmul (nmul (nmul (ndec 5 1) (c_rho c)) (vnorm (c_v c))) (vnorm (c_v c))) (ld_cd x)) (s_dS (c_sec c)))
                 (ld_vel x)) (vnorm (ld_vel x)) = parasitic_force x).
  { rewrite vdivs_scale, vscale_scale. unfold parasitic_force. f_equal. unfold ld_q, Rdiv.
    change (ld_rho x) with (c_rho c). change (ld_v x) with (c_v c). change (ld_sec x) with (c_sec c).
    rnum. rewrite Rdec_5_1. simpl. ring. }
  rewrite Ep. unfold sol_of. f_equal.
  unfold vortex_moment. change (ld_sec x) with (c_sec c).
  rewrite vadd_comm.
  assert (Eq : forall k (a b : vec3 R), vadd a (vscale (- k) b) = vsub a (vscale k b)) by (intros; vring).
  rewrite <- Eq. f_equal. f_equal. unfold ld_q.
  change (ld_rho x) with (c_rho c). change (ld_v x) with (c_v c).
  rnum. rewrite Rdec_5_1. simpl. field.
Qed.

Lemma solve_cells_loads u cg cs gam cmd : List.length gam = List.length cs ->
  (forall c, In c cs -> c_delta c = degrees (cmd (c_sec c))) ->
  solve_cells u cg cs gam = map (sol_of cg) (loads_of u cmd cs gam).
Proof.
  intros Hl Hd. apply nth_error_ext. intros i. unfold solve_cells.
  rewrite solve_cells_nth by auto. unfold loads_of. rewrite map_mapi, mapi_nth.
  destruct (nth_error cs i) as [c|] eqn:Ei; cbn [option_map]; auto.
  destruct (same_length_nth cs gam i c Hl Ei) as [y Hy]. rewrite Hy.
  rewrite (nth_error_nth _ _ 0 Hy). f_equal. simpl Nat.add. rewrite total_velocity_wash.
  apply solve_cell_load. apply Hd. eapply nth_error_In; eauto.
Qed.

(** Setting of the cells by a call with explicit states. *)
Lemma solve_inputs ls g cg stype d c s r s' :
  g_num g = List.length (g_sections g) -> given_aero (Some d) -> given_control (Some c) ->
  ll_solve ls g cg stype (Some d) (Some c) s = (Ok r, s') ->
  exists v u rho gam, base_flow (g_num g) d = Ok (v, u, rho) /\
    List.length v = g_num g /\ List.length rho = g_num g /\
    l_v s' = map2 (at_section (body_rates (an d)) cg) v (g_sections g) /\
    l_uinf s' = u /\ l_rho s' = rho /\
    l_delta s' = map (fun sec => degrees (commanded c sec)) (g_sections g) /\
    l_eff s' = map (fun sec => efficiency (commanded c sec)) (g_sections g) /\
    solved ls g cg s' gam.
Proof.
  intros Hn Ha Hc H. destruct (ll_solve_solved _ _ _ _ _ _ _ H) as (_ & s1 & s2 & gam & H1 & H2 & H3 & H4).
  pose proof (process_aero_base g cg d s Hn Ha) as P. rewrite H1 in P.
  destruct (base_flow (g_num g) d) as [[[v u] rho]|e] eqn:Eb; [|discriminate].
  destruct P as (s1' & E & Ev & Eu & Er & _ & _ & L1 & L2). inversion E; subst s1'; clear E.
  destruct (process_control_flow _ _ _ H2) as (F1 & F2 & F3 & F4).
  unfold inputs in H3. inversion H3 as [[G1 G2 G3 G4 G5]].
  exists v, u, rho, gam.
  destruct c as [|e0 c]; [destruct Hc as (? & K & K'); inversion K; congruence|].
  cbv zeta in F4. apply pair_equal_spec in F4. destruct F4 as [F4 F5].
  refine (conj eq_refl (conj L1 (conj L2 (conj _ (conj _ (conj _ (conj _ (conj _ H4)))))))); try congruence.
  - rewrite G4, F4. apply map_ext. intros; apply section_delta_spec.
  - rewrite G5, F5, map_map. apply map_ext. intros sec. rewrite section_delta_spec. apply deflection_eff_spec.
Qed.

(** The full picture of a solve with explicit states. *)
Record operating (ls : linear_solver) (g : grid R) (cg : vec3 R) (c : dict R)
       (s' : ll_state R) (loads : list load) : Prop := {
  op_sec : map ld_sec loads = g_sections g;
  op_v : map ld_v loads = l_v s';
  op_rho : map ld_rho loads = l_rho s';
  op_cmd : map ld_cmd loads = map (commanded c) (g_sections g);
  op_gamma : l_gamma s' = Some (map ld_gamma loads);
  op_w : forall i x, nth_error loads i = Some x ->
           ld_w x = vsum (mapi (fun j y => vscale (ld_gamma y) (induced (l_uinf s') (Nat.eqb i j) (ld_sec x) (ld_sec y))) loads);
  op_eq : Forall lifting_line_equation loads;
  op_sols : solve_cells (l_uinf s') cg (cells g s') (map ld_gamma loads) = map (sol_of cg) loads;
  op_solved : solved ls g cg s' (map ld_gamma loads)
}.

Lemma mapi_nth_self (gam : list R) {A} (cs : list A) : List.length gam = List.length cs ->
  mapi (fun i _ => nth i gam 0) cs = gam.
Proof.
  intros H. apply nth_error_ext. intros i. rewrite mapi_nth.
  destruct (nth_error cs i) eqn:E; simpl.
  - destruct (same_length_nth _ gam _ _ H E) as [y Hy]. rewrite Hy. f_equal. now apply nth_error_nth.
  - apply nth_error_None in E. symmetry. apply nth_error_None. lia.
Qed.
Lemma mapi_const {A B} (f : A -> B) l : mapi (fun _ x => f x) l = map f l.
Proof. unfold mapi. generalize 0%nat. induction l; simpl; intros; congruence. Qed.

Lemma op_w_aux (u : vec3 R) i si : forall (gam : list R) (cs : list (cell R)) (loads : list load) k,
  map ld_gamma loads = gam -> map ld_sec loads = map (@c_sec R) cs ->
  map2 vscale gam (mapi_from (fun j cj => induced u (Nat.eqb i j) si (c_sec cj)) k cs)
  = mapi_from (fun j y => vscale (ld_gamma y) (induced u (Nat.eqb i j) si (ld_sec y))) k loads.
Proof.
  intros gam cs. revert gam. induction cs as [|c cs IH]; intros gam [|x loads] k <- H; try discriminate; auto.
  cbn [map] in H. injection H as E H. cbn [map mapi_from map2]. rewrite <- E. f_equal. now apply IH.
Qed.
