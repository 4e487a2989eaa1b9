(** Properties of every returning wing solve, after any history (C18-C22, C30, C31, C61). *)
From Coq Require Import Reals ZArith String Bool Arith Lia Lra List.
From Verif Require Import Base Num RVec Geometry Grid LLModel Spec_Grid Spec_LL LL_state LL_R LL_solve Grid_thm LL_props.
Import ListNotations.
Local Open Scope R_scope.

(** *** Sizes of the arrays *)
Definition sized {T} (g : grid T) (s : ll_state T) : Prop :=
  List.length (l_v s) = List.length (g_sections g) /\ List.length (l_rho s) = List.length (g_sections g) /\
  List.length (l_delta s) = List.length (g_sections g) /\ List.length (l_eff s) = List.length (g_sections g).

Section Sizes.
  Context {T : Type} {N : num_ops T}.
  Variables (ls : linear_solver (T := T)) (g : grid T).
  Hypothesis Hn : g_num g = List.length (g_sections g).

  Lemma map2_len {A B C} (f : A -> B -> C) : forall l l', List.length l = List.length l' ->
    List.length (map2 f l l') = List.length l.
  Proof. induction l; destruct l'; simpl; intros; auto; lia. Qed.
  Lemma broadcast_len {A} n (rows r : list A) : broadcast n rows = Ok r -> List.length r = n.
  Proof.
    unfold broadcast. destruct rows as [|x [|y l]].
    - destruct (Nat.eqb_spec (@List.length A []) n); intros H; inversion H; subst; auto.
    - intros H; inversion H. apply repeat_length.
    - destruct (Nat.eqb_spec (List.length (x :: y :: l)) n); intros H; inversion H; subst; auto.
  Qed.
  Lemma set_flow_sized v u rho s : List.length v = g_num g -> List.length rho = g_num g ->
    sized g s -> sized g (set_flow v u rho s).
  Proof.
    intros E1 E2 (H1 & H2 & H3 & H4). unfold sized; cbn [set_flow l_v l_rho l_delta l_eff]. repeat split; congruence.
  Qed.
  Lemma rotation_sized cg a s : sized g s -> sized g (superimpose_rotation g cg a s).
  Proof.
    intros (H1 & H2 & H3 & H4). unfold sized, superimpose_rotation; cbn [set_rotation l_v l_rho l_delta l_eff].
    rewrite map2_len; auto.
  Qed.
  Lemma process_aero_sized cg a s : sized g s -> sized g (snd (process_aero g cg a s)).
  Proof.
    intros H. unfold process_aero. destruct (opt_truthy aero_truthy a) as [d|].
    - assert (Hr : forall s, sized g s -> sized g (snd ((if has_rates (an d)
          then smod (superimpose_rotation g cg (an d)) else sret tt) s))).
      { intros s0 H0. unfold smod, sret. destruct (has_rates (an d)); simpl; auto. now apply rotation_sized. }
      unfold slift, sbind, sraise.
      destruct (als d) as [rows|].
      + destruct (broadcast (g_num g) rows) as [r|e] eqn:Eb; auto.
        apply broadcast_len in Eb.
        destruct (dget (an d) "V_mag"); unfold smod at 1; apply Hr, set_flow_sized; auto; now rewrite map_length.
      + destruct (dget (an d) "V_mag"), (dget (an d) "rho"); auto.
        unfold smod at 1; apply Hr, set_flow_sized; auto; now rewrite repeat_length.
    - unfold smod. cbn [snd]. apply set_flow_sized; auto; destruct H as (H1 & H2 & H3 & H4); [rewrite map_length|]; congruence.
  Qed.
  Lemma process_control_sized c s : sized g s -> sized g (snd (process_control g c s)).
  Proof.
    intros (H1 & H2 & H3 & H4). unfold process_control. destruct (opt_truthy dtruthy c); simpl; repeat split; auto;
      cbn [set_control l_delta l_eff]; now rewrite !map_length.
  Qed.
  Lemma ll_solve_sized cg stype a c s : sized g s -> sized g (snd (ll_solve ls g cg stype a c s)).
  Proof.
    intros H. unfold ll_solve, sbind.
    pose proof (process_aero_sized cg a s H) as H1. destruct (process_aero g cg a s) as [[[]|e] s1]; auto.
    pose proof (process_control_sized c s1 H1) as H2. destruct (process_control g c s1) as [[[]|e] s2]; auto.
    cbn [snd] in H2. destruct (String.eqb stype "linear"); auto.
    unfold linear_solve. destruct (ls _ _); auto.
  Qed.
  Lemma fresh_sized : sized g (fresh g).
  Proof. repeat split; cbn; rewrite repeat_length; auto. Qed.
  Lemma after_sized h : sized g (after ls g h).
  Proof.
    unfold after. generalize fresh_sized. generalize (fresh g).
    induction h as [|c h IH]; intros s H; simpl; auto. apply IH. now apply ll_solve_sized.
  Qed.
End Sizes.

(** *** Deflections in force *)

Record controls_are (g : grid R) (c : dict R) (s : ll_state R) : Prop := {
  ca_delta : l_delta s = map (fun sec => degrees (commanded c sec)) (g_sections g);
  ca_eff : map2 Rmult (l_eff s) (l_delta s)
           = map (fun sec => efficiency (commanded c sec) * degrees (commanded c sec)) (g_sections g)
}.
Lemma commanded_nil s : commanded [] s = 0.
Proof. unfold commanded, entry. simpl. ring. Qed.
Lemma degrees_0 : degrees 0 = 0.
Proof. unfold degrees. unfold Rdiv. ring. Qed.
Lemma map2_map_same {A B C D} (f : B -> C -> D) (h : A -> B) (k : A -> C) l :
  map2 f (map h l) (map k l) = map (fun x => f (h x) (k x)) l.
Proof. induction l; simpl; congruence. Qed.

Lemma deflections_controls g co s : g_num g = List.length (g_sections g) ->
  (l_delta s, l_eff s) = deflections_of g co -> controls_are g (command_of co) s.
Proof.
  intros Hn H. destruct co as [d|]; cbn [deflections_of command_of] in *; apply pair_equal_spec in H; destruct H as [H1 H2].
  - constructor.
    + rewrite H1. apply map_ext. intros; apply section_delta_spec.
    + rewrite H1, H2, map_map, map2_map_same. apply map_ext. intros sec.
      rewrite section_delta_spec, deflection_eff_spec. reflexivity.
  - assert (E : forall (x : R), repeat x (g_num g) = map (fun _ => x) (g_sections g)).
    { intros x. rewrite Hn. clear. induction (g_sections g); simpl; congruence. }
    rewrite E in *. constructor.
    + rewrite H1. apply map_ext. intros. rewrite commanded_nil, degrees_0. reflexivity.
    + rewrite H1, H2, map2_map_same. apply map_ext. intros. rewrite commanded_nil, degrees_0. rnum. ring.
Qed.

Lemma control_in_force_app {T} {N : num_ops T} n h : forall old h',
  control_in_force (T := T) n old (h ++ h') = control_in_force n (control_in_force n old h) h'.
Proof. induction h; simpl; auto. Qed.


Lemma after_app {T} {N : num_ops T} ls (g : grid T) h k :
  after ls g (h ++ [k]) = snd (call_solve ls g k (after ls g h)).
Proof. unfold after. rewrite fold_left_app. reflexivity. Qed.

Lemma acting_controls ls g h k r s' : g_num g = List.length (g_sections g) ->
  call_solve ls g k (after ls g h) = (Ok r, s') -> controls_are g (acting g h k) s'.
Proof.
  intros Hn H. apply deflections_controls; auto.
  pose proof (controls_in_force ls g (h ++ [k])) as E. rewrite after_app, H in E. exact E.
Qed.

Lemma usable_returns {T} {N : num_ops T} ls (g : grid T) cg stype a c s r s' :
  ll_solve ls g cg stype a c s = (Ok r, s') -> usable_flow (g_num g) a.
Proof.
  intros H. apply usable_flow_spec. destruct (usable_flowb (g_num g) a) eqn:E; auto.
  destruct (process_aero_err g cg a s E) as (e & K & _). unfold ll_solve, sbind in H. rewrite K in H. discriminate.
Qed.
(** With explicit controls the history is irrelevant. *)
Lemma acting_given ls g h k c r s' : k_ctl k = Some c -> c <> [] ->
  call_solve ls g k (after ls g h) = (Ok r, s') -> acting g h k = c.
Proof.
  intros Hc Hne H. unfold acting. rewrite control_in_force_app. simpl. rewrite Hc.
  apply usable_returns in H. apply usable_flow_spec in H. rewrite H. destruct c; [congruence|]. reflexivity.
Qed.

(** *** The full picture of a solve *)
Lemma cell_eff g c s i ci : sized g s -> controls_are g c s -> nth_error (cells g s) i = Some ci ->
  c_delta ci = degrees (commanded c (c_sec ci)) /\
  c_eff ci * c_delta ci = efficiency (commanded c (c_sec ci)) * degrees (commanded c (c_sec ci)).
Proof.
  intros (L1 & L2 & L3 & L4) [C1 C2] Hi. unfold cells in Hi. rewrite cells_of_nth in Hi by auto.
  apply (f_equal (fun l => nth_error l i)) in C1. rewrite nth_error_map in C1.
  assert (E2 : forall (a b : list R) i, nth_error (map2 Rmult a b) i =
     match nth_error a i, nth_error b i with Some x, Some y => Some (x * y) | _, _ => None end).
  { clear. induction a as [|x a IH]; intros [|y b] [|i]; simpl; auto. destruct (nth_error a i); auto. }
  apply (f_equal (fun l => nth_error l i)) in C2. rewrite nth_error_map, E2 in C2.
  destruct (nth_error (g_sections g) i) as [sec|]; [|discriminate].
  destruct (nth_error (l_v s) i); [|discriminate]. destruct (nth_error (l_rho s) i); [|discriminate].
  destruct (nth_error (l_delta s) i); [|discriminate]. destruct (nth_error (l_eff s) i); [|discriminate].
  injection Hi as <-. cbn [c_delta c_sec c_eff option_map] in *. split; congruence.
Qed.

Lemma solved_operating ls g cg c s' gam : exact_solver ls -> sized g s' -> controls_are g c s' ->
  solved ls g cg s' gam -> exists loads, operating ls g cg c s' loads.
Proof.
  intros He Hz Hc Hs. pose proof Hz as (Lv & Lr & Ld & Le).
  destruct (cells_of_maps _ _ _ _ _ Lv Lr Ld Le) as (M1 & M2 & M3 & M4 & M5).
  fold (cells g s') in M1, M2, M3, M4, M5.
  set (cs := cells g s') in *.
  assert (Hcell : forall i x, nth_error cs i = Some x -> _) by (intros i x Hx; exact (cell_eff _ _ _ _ _ Hz Hc Hx)).
  destruct (exact_answer _ _ _ _ He (sv_gamma Hs)) as [Hsol Huni]. fold cs in Hsol, Huni.
  destruct (solves_rows _ _ _ Hsol) as [Lg Hrows].
  exists (loads_of (l_uinf s') (commanded c) cs gam).
  assert (G : map ld_gamma (loads_of (l_uinf s') (commanded c) cs gam) = gam).
  { unfold loads_of. rewrite map_mapi. cbn [ld_gamma]. now apply mapi_nth_self. }
  assert (S1 : map ld_sec (loads_of (l_uinf s') (commanded c) cs gam) = map (@c_sec R) cs).
  { unfold loads_of. rewrite map_mapi. cbn [ld_sec]. apply mapi_const. }
  constructor.
  - congruence.
  - rewrite <- M2. unfold loads_of. rewrite map_mapi. cbn [ld_v]. apply mapi_const.
  - rewrite <- M3. unfold loads_of. rewrite map_mapi. cbn [ld_rho]. apply mapi_const.
  - rewrite <- M1, map_map. unfold loads_of. rewrite map_mapi. cbn [ld_cmd]. apply mapi_const.
  - rewrite G. apply (sv_l_gamma Hs).
  - intros i x Hx. pose proof Hx as Hx'. unfold loads_of in Hx'. rewrite mapi_nth in Hx'.
    destruct (nth_error cs i) as [ci|] eqn:Ei; inversion Hx'; subst x; clear Hx'. cbn [ld_w ld_sec].
    unfold wash. f_equal. apply op_w_aux; auto.
  - apply Forall_forall. intros x Hx. apply In_nth_error in Hx. destruct Hx as [i Hi].
    unfold loads_of in Hi. rewrite mapi_nth in Hi. destruct (nth_error cs i) as [ci|] eqn:Ei; [|discriminate].
    cbn [option_map] in Hi. injection Hi as <-.
    destruct (same_length_nth cs gam i ci Lg Ei) as [y Hy]. rewrite (nth_error_nth _ _ 0 Hy).
    unfold lifting_line_equation, ld_dl. cbn [ld_sec ld_v ld_cmd ld_gamma ld_w].
    pose proof (Hrows i ci Ei) as E. rewrite (row_equation _ _ _ _ _ y Lg Hy), b_entry_spec in E.
    destruct (Hcell i ci Ei) as [D1 D2]. unfold eff_flap in E. rnum.
    replace (s_flap_eff (c_sec ci) * efficiency (commanded c (c_sec ci)) * degrees (commanded c (c_sec ci)))
      with (s_flap_eff (c_sec ci) * c_eff ci * c_delta ci) by (rewrite !Rmult_assoc, D2; reflexivity).
    rewrite <- E. ring.
  - rewrite G. apply solve_cells_loads; auto. intros x Hx. apply In_nth_error in Hx. destruct Hx as [i Hi].
    now apply (Hcell i).
  - rewrite G. exact Hs.
Qed.

Lemma call_operating ls g h k r s' : exact_solver ls -> g_num g = List.length (g_sections g) ->
  call_solve ls g k (after ls g h) = (Ok r, s') ->
  exists loads, operating ls g (k_cg k) (acting g h k) s' loads.
Proof.
  intros He Hn H. pose proof (acting_controls _ _ _ _ _ _ Hn H) as Hc.
  pose proof (ll_solve_sized ls g Hn (k_cg k) (k_stype k) (k_aero k) (k_ctl k) _ (after_sized ls g Hn h)) as Hz.
  unfold call_solve in H. rewrite H in Hz.
  destruct (ll_solve_solved _ _ _ _ _ _ _ H) as (_ & _ & _ & gam & _ & _ & _ & Hs).
  eapply solved_operating; eauto.
Qed.
