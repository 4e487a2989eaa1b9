(** The wing solve as a state machine: what a call returns and leaves behind, for
    arbitrary arithmetic (C23-C27). *)
From Coq Require Import ZArith String Bool Arith Lia List.
From Verif Require Import Base Num Geometry Grid LLModel Spec_Grid Spec_LL.
Import ListNotations.
Set Implicit Arguments.

Section State.
  Context {T : Type} {N : num_ops T}.
  Variable ls : linear_solver (T := T).
  Variable g : grid T.

  Lemma usable_flow_spec n a : usable_flowb (T := T) n a = true <-> usable_flow n a.
  Proof.
    unfold usable_flowb, usable_flow. destruct a as [[d [rows|]]|]; simpl.
    - rewrite orb_true_iff, !Nat.eqb_eq. reflexivity.
    - unfold dmem. rewrite orb_true_iff, andb_true_iff.
      assert (D : negb (dtruthy d) = true <-> d = []) by (destruct d; simpl; split; congruence).
      rewrite D. destruct (dget d "V_mag"), (dget d "rho"); intuition congruence.
    - tauto.
  Qed.

  (** the part of the state read by the linear solve *)
  Definition inputs (s : ll_state T) := (l_v s, l_uinf s, l_rho s, l_delta s, l_eff s).
  Definition outputs (s : ll_state T) :=
    (l_results s, l_gamma s, l_alphas s, l_forces s, (l_cl s, l_cd s, l_cm s)).

  Lemma observed_outputs s s' : outputs s = outputs s' -> observed g s = observed g s'.
  Proof.
    unfold outputs, observed, ll_distributions, find_stall_location. intros H. inversion H.
    repeat match goal with E : _ s = _ s' |- _ => rewrite E; clear E end. reflexivity.
  Qed.

  Lemma broadcast_ok {A} n (rows : list A) :
    (exists r, broadcast n rows = Ok r) <-> List.length rows = 1 \/ List.length rows = n.
  Proof.
    unfold broadcast. destruct rows as [|x [|y r]].
    - simpl. destruct n; simpl; split; intros H; eauto; [destruct H; discriminate|destruct H; lia].
    - simpl. split; eauto.
    - destruct (Nat.eqb_spec (List.length (x :: y :: r)) n) as [E|E]; split; intros H; eauto.
      + destruct H; discriminate.
      + destruct H; [simpl in H; lia|contradiction].
  Qed.
  Lemma broadcast_err {A} n (rows : list A) e : broadcast n rows = Err e -> e = ValueError.
  Proof.
    unfold broadcast. destruct rows as [|x [|y r]]; try discriminate.
    - destruct (Nat.eqb _ _); congruence.
    - destruct (Nat.eqb _ _); congruence.
  Qed.

  (** *** Processing the flow description *)
  Lemma process_aero_ok cg a s : usable_flowb (g_num g) a = true ->
    exists s', process_aero g cg a s = (Ok tt, s') /\
      l_delta s' = l_delta s /\ l_eff s' = l_eff s /\ outputs s' = outputs s.
  Proof.
    intros H. apply usable_flow_spec in H. unfold process_aero.
    destruct a as [d|]; unfold opt_truthy.
    2:{ eexists; split; [reflexivity|]. repeat split. }
    unfold usable_flow in H. unfold aero_truthy. destruct (als d) as [rows|] eqn:Ed.
    - rewrite orb_true_r. rewrite Ed. apply broadcast_ok in H. destruct H as [r Hr].
      unfold slift, sbind, smod, sret. rewrite Hr.
      destruct (dget (an d) "V_mag"), (has_rates (an d)); eexists; repeat split.
    - rewrite orb_false_r. destruct H as [H|[H1 H2]].
      + rewrite H. simpl. eexists; repeat split.
      + assert (E : dtruthy (an d) = true) by (destruct (an d); simpl in *; congruence).
        rewrite E, Ed. destruct (dget (an d) "V_mag"); [|congruence].
        destruct (dget (an d) "rho"); [|congruence].
        unfold sbind, smod, sret. destruct (has_rates (an d)); eexists; repeat split.
  Qed.
  Lemma process_aero_err cg a s : usable_flowb (g_num g) a = false ->
    exists e, process_aero g cg a s = (Err e, s) /\
      (e = RuntimeError \/ (e = ValueError /\ exists d, a = Some d /\ als d <> None)) /\
      (forall d, a = Some d -> als d = None -> e = RuntimeError).
  Proof.
    intros H. assert (H' : ~ usable_flow (g_num g) a).
    { intros K. apply usable_flow_spec in K. congruence. }
    clear H. unfold process_aero. destruct a as [d|]; unfold opt_truthy; [|simpl in H'; tauto].
    unfold usable_flow in H'. unfold aero_truthy. destruct (als d) as [rows|] eqn:Ed.
    - rewrite orb_true_r. rewrite Ed. unfold slift, sbind.
      destruct (broadcast (g_num g) rows) as [r|e] eqn:E.
      + exfalso. apply H'. apply broadcast_ok. eauto.
      + exists e. rewrite (broadcast_err _ _ E). split; auto. split.
        * right. split; auto. exists d. split; congruence.
        * intros d0 E0 E1. inversion E0; subst. congruence.
    - rewrite orb_false_r. exists RuntimeError. split; auto.
      destruct (dtruthy (an d)) eqn:Et.
      + rewrite Ed. destruct (dget (an d) "V_mag") eqn:E1; [|reflexivity].
        destruct (dget (an d) "rho") eqn:E2; [|reflexivity].
        exfalso. apply H'. right. split; congruence.
      + exfalso. apply H'. left. destruct (an d); simpl in *; congruence.
  Qed.

  (** The flow set up from a non-empty description does not depend on the state. *)
  Lemma process_aero_inputs cg a s1 s2 : given_aero a ->
    let r1 := process_aero g cg a s1 in let r2 := process_aero g cg a s2 in
    fst r1 = fst r2 /\
    (fst r1 = Ok tt -> l_v (snd r1) = l_v (snd r2) /\ l_uinf (snd r1) = l_uinf (snd r2) /\
                       l_rho (snd r1) = l_rho (snd r2)).
  Proof.
    intros (d & -> & Hd).
    assert (E : aero_truthy d = true).
    { unfold aero_truthy. destruct Hd as [Hd|Hd].
      - destruct (an d); simpl; congruence.
      - destruct (als d); [apply orb_true_r|congruence]. }
    unfold process_aero, opt_truthy. rewrite E.
    unfold slift, sbind, smod, sret, sraise.
    destruct (als d) as [rows|].
    - destruct (broadcast (g_num g) rows) as [r|e]; [|split; [reflexivity|discriminate]].
      destruct (dget (an d) "V_mag"), (has_rates (an d)); simpl; auto.
    - destruct (dget (an d) "V_mag"), (dget (an d) "rho"); simpl; try (split; [reflexivity|discriminate]).
      destruct (has_rates (an d)); simpl; auto.
  Qed.

  Lemma process_control_given c s : given_control c ->
    exists d, c = Some d /\
    process_control g c s =
      (Ok tt, let ds := map (section_delta d) (g_sections g) in set_control ds (map deflection_eff ds) s).
  Proof.
    intros (d & -> & Hd). exists d. split; auto. unfold process_control, opt_truthy.
    destruct d; [congruence|]. reflexivity.
  Qed.
  Lemma process_control_absent c s : (c = None \/ c = Some []) -> process_control g c s = (Ok tt, s).
  Proof. intros [-> | ->]; reflexivity. Qed.
  Lemma control_cases (c : option (dict T)) : given_control c \/ (c = None \/ c = Some []).
  Proof. destruct c as [[|e d]|]; auto. left. exists (e :: d). split; congruence. Qed.

  (** *** The linear branch depends on the inputs only *)
  Lemma linear_solve_inputs cg s1 s2 : inputs s1 = inputs s2 ->
    let r1 := linear_solve ls g cg s1 in let r2 := linear_solve ls g cg s2 in
    fst r1 = fst r2 /\ (fst r1 = Ok TheResultsDict -> outputs (snd r1) = outputs (snd r2)) /\
    inputs (snd r1) = inputs s1 /\
    (fst r1 <> Ok TheResultsDict -> outputs (snd r1) = outputs s1).
  Proof.
    unfold inputs. intros H. inversion H as [[E1 E2 E3 E4 E5]].
    unfold linear_solve, cells. rewrite E1, E2, E3, E4, E5.
    destruct (ls _ _); simpl.
    - repeat split; auto; try congruence.
      all: rewrite ?E1, ?E2, ?E3, ?E4, ?E5; auto.
    - repeat split; auto; try congruence.
      all: rewrite ?E1, ?E2, ?E3, ?E4, ?E5; auto.
  Qed.
  Lemma linear_solve_results cg s r s' : linear_solve ls g cg s = (Ok r, s') ->
    exists res, l_results s' = Some res.
  Proof. unfold linear_solve. destruct (ls _ _); intros H; inversion H; subst; simpl; eauto. Qed.

  (** *** Inversion of a returning solve *)
  Lemma ll_solve_inv cg stype a c s r s' :
    ll_solve ls g cg stype a c s = (Ok r, s') ->
    exists s1 s2, process_aero g cg a s = (Ok tt, s1) /\ process_control g c s1 = (Ok tt, s2) /\
      stype = "linear"%string /\ linear_solve ls g cg s2 = (Ok r, s').
  Proof.
    unfold ll_solve, sbind. destruct (process_aero g cg a s) as [[[]|e] s1]; [|discriminate].
    destruct (process_control g c s1) as [[[]|e] s2] eqn:E2; [|discriminate].
    destruct (String.eqb_spec stype "linear"); [|discriminate].
    intros H. exists s1, s2. auto.
  Qed.

  (** What a returning solve leaves behind. *)
  Record solved (cg : vec3 T) (s' : ll_state T) (gam : list T) : Prop := {
    sv_gamma : ls (a_matrix (l_uinf s') (cells g s')) (map b_entry (cells g s')) = Some gam;
    sv_l_gamma : l_gamma s' = Some gam;
    sv_results : l_results s' = Some (assemble (l_uinf s') (solve_cells (l_uinf s') cg (cells g s') gam));
    sv_alphas : l_alphas s' = Some (map (@so_alpha T) (solve_cells (l_uinf s') cg (cells g s') gam));
    sv_forces : l_forces s' = Some (map (@so_force T) (solve_cells (l_uinf s') cg (cells g s') gam));
    sv_cl : l_cl s' = Some (map (@so_cl T) (solve_cells (l_uinf s') cg (cells g s') gam));
    sv_cd : l_cd s' = Some (map (@so_cd T) (solve_cells (l_uinf s') cg (cells g s') gam));
    sv_cm : l_cm s' = Some (map (@so_cm T) (solve_cells (l_uinf s') cg (cells g s') gam))
  }.
  Lemma linear_solve_solved cg s r s' : linear_solve ls g cg s = (Ok r, s') ->
    inputs s' = inputs s /\ exists gam, solved cg s' gam.
  Proof.
    unfold linear_solve. destruct (ls _ _) as [gam|] eqn:E; intros H; inversion H; subst; clear H.
    split; [reflexivity|]. exists gam. constructor; try reflexivity. exact E.
  Qed.
  Lemma ll_solve_solved cg stype a c s r s' : ll_solve ls g cg stype a c s = (Ok r, s') ->
    r = TheResultsDict /\
    exists s1 s2 gam, process_aero g cg a s = (Ok tt, s1) /\ process_control g c s1 = (Ok tt, s2) /\
      inputs s' = inputs s2 /\ solved cg s' gam.
  Proof.
    intros H. destruct r. split; auto. destruct (ll_solve_inv _ _ _ _ _ H) as (s1 & s2 & H1 & H2 & _ & H3).
    destruct (linear_solve_solved _ _ H3) as (H4 & gam & H5). exists s1, s2, gam. auto.
  Qed.
  Lemma process_control_flow c s s' : process_control g c s = (Ok tt, s') ->
    l_v s' = l_v s /\ l_uinf s' = l_uinf s /\ l_rho s' = l_rho s /\
    (l_delta s', l_eff s') =
      match c with
      | Some (e :: d) => let ds := map (section_delta (e :: d)) (g_sections g) in (ds, map deflection_eff ds)
      | _ => (l_delta s, l_eff s)
      end.
  Proof.
    unfold process_control, opt_truthy. destruct c as [[|e d]|]; simpl dtruthy; intros H; inversion H; subst; auto.
  Qed.

  (** C24 *)
  Lemma history_independent h cg stype a c : given_aero a -> given_control c ->
    let call := ll_solve ls g cg stype a c in
    fst (call (after ls g h)) = fst (call (fresh g)) /\
    (forall r, fst (call (after ls g h)) = Ok r ->
       observed g (snd (call (after ls g h))) = observed g (snd (call (fresh g)))).
  Proof.
    intros Ha Hc. set (s1 := after ls g h). set (s2 := fresh g). clearbody s1 s2.
    cbv zeta. unfold ll_solve, sbind.
    destruct (process_aero_inputs cg s1 s2 Ha) as [E1 E2].
    destruct (process_aero g cg a s1) as [[[]|e] t1], (process_aero g cg a s2) as [[[]|e'] t2];
      simpl in E1, E2; try discriminate.
    2:{ simpl. split; [congruence|]. intros r Hr. discriminate. }
    specialize (E2 eq_refl). destruct E2 as (Ev & Eu & Er).
    destruct (process_control_given t1 Hc) as (d & Ed & ->).
    destruct (process_control_given t2 Hc) as (d' & Ed' & ->).
    assert (d' = d) by congruence. subst d'.
    destruct (String.eqb stype "linear"); [|simpl; split; auto; intros; discriminate].
    match goal with |- fst (linear_solve _ _ _ ?a) = fst (linear_solve _ _ _ ?b) /\ _ =>
      destruct (@linear_solve_inputs cg a b) as (K1 & K2 & _ & _) end.
    { unfold inputs. simpl. now rewrite Ev, Eu, Er. }
    split; auto. intros [] Hr. apply observed_outputs, K2, Hr.
  Qed.

  (** *** The deflections in force (C25) *)
  Definition deflections_of (c : option (dict T)) : list T * list T :=
    match c with
    | Some d => let ds := map (section_delta d) (g_sections g) in (ds, map deflection_eff ds)
    | None => (repeat n0 (g_num g), repeat n0 (g_num g))
    end.

  Lemma solve_controls c s :
    let s' := snd (call_solve ls g c s) in
    (l_delta s', l_eff s') =
    match k_ctl c with
    | Some (e :: d) => if usable_flowb (g_num g) (k_aero c) then deflections_of (Some (e :: d))
                       else (l_delta s, l_eff s)
    | _ => (l_delta s, l_eff s)
    end.
  Proof.
    unfold call_solve, ll_solve, sbind. cbv zeta.
    destruct (usable_flowb (g_num g) (k_aero c)) eqn:Eu.
    - destruct (process_aero_ok (k_cg c) (k_aero c) s Eu) as (s1 & -> & E1 & E2 & _).
      rewrite <- E1, <- E2. clear E1 E2.
      destruct (k_ctl c) as [[|e d]|]; simpl process_control; cbn [opt_truthy dtruthy].
      all: try rewrite process_control_absent by auto.
      2: change (process_control g (Some (e :: d)) s1) with
         (Ok tt, let ds := map (section_delta (e :: d)) (g_sections g) in
                 set_control ds (map deflection_eff ds) s1).
      all: destruct (String.eqb (k_stype c) "linear"); [|reflexivity].
      all: cbv zeta; match goal with |- context [linear_solve _ _ _ ?b] =>
             destruct (@linear_solve_inputs (k_cg c) b b eq_refl) as (_ & _ & K & _) end.
      all: unfold inputs in K; apply (f_equal (fun p => (snd (fst p), snd p))) in K; exact K.
    - destruct (process_aero_err (k_cg c) (k_aero c) s Eu) as (e & -> & _).
      destruct (k_ctl c) as [[|? ?]|]; reflexivity.
  Qed.

  Lemma controls_after h : forall old s, (l_delta s, l_eff s) = deflections_of old ->
    let s' := fold_left (fun s c => snd (call_solve ls g c s)) h s in
    (l_delta s', l_eff s') = deflections_of (control_in_force (g_num g) old h).
  Proof.
    induction h as [|c h IH]; intros old s E; simpl; auto.
    apply IH. rewrite (solve_controls c s). destruct (k_ctl c) as [[|e d]|]; auto.
    destruct (usable_flowb _ _); auto.
  Qed.
  Lemma controls_in_force h :
    (l_delta (after ls g h), l_eff (after ls g h)) = deflections_of (control_in_force (g_num g) None h).
  Proof. apply controls_after. reflexivity. Qed.

  (** Omitting control_state = repeating the deflections in force. *)
  Lemma omitted_control_keeps h cg stype a c d :
    c = None \/ c = Some [] -> control_in_force (g_num g) None h = Some d ->
    ll_solve ls g cg stype a c (after ls g h) = ll_solve ls g cg stype a (Some d) (after ls g h).
  Proof.
    intros Hc Hd. pose proof (controls_in_force h) as E. rewrite Hd in E.
    set (s := after ls g h) in *. unfold ll_solve, sbind.
    destruct (process_aero g cg a s) as [[[]|e] s1] eqn:E1; auto.
    rewrite process_control_absent by auto.
    assert (Hs1 : (l_delta s1, l_eff s1) = (l_delta s, l_eff s)).
    { destruct (usable_flowb (g_num g) a) eqn:Eu.
      - destruct (process_aero_ok cg a s Eu) as (s1' & K & K1 & K2 & _).
        rewrite E1 in K. inversion K; subst. congruence.
      - destruct (process_aero_err cg a s Eu) as (e & K & _). congruence. }
    assert (Hd' : d <> []).
    { clear -Hd. assert (H : forall h old, old <> Some [] -> control_in_force (T := T) (g_num g) old h <> Some []).
      { clear. induction h as [|c h IH]; intros old Ho; simpl; auto. apply IH.
        destruct (k_ctl c) as [[|? ?]|]; auto. destruct (usable_flowb _ _); auto. congruence. }
      intros ->. revert Hd. apply H. discriminate. }
    destruct (process_control_given (c := Some d) s1) as (d' & E' & ->); [exists d; auto|].
    inversion E'; subst d'.
    assert (K : set_control (map (section_delta d) (g_sections g))
                  (map deflection_eff (map (section_delta d) (g_sections g))) s1 = s1).
    { rewrite E in Hs1. unfold deflections_of in Hs1. inversion Hs1 as [[K1 K2]].
      destruct s1; unfold set_control; simpl in *; subst; reflexivity. }
    cbv zeta. rewrite K. reflexivity.
  Qed.

  (** Never given a control state: the deflection arrays still hold zeros. *)
  Lemma no_control_yet h : control_in_force (g_num g) None h = None ->
    l_delta (after ls g h) = repeat n0 (g_num g) /\ l_eff (after ls g h) = repeat n0 (g_num g).
  Proof.
    intros H. pose proof (controls_in_force h) as E. rewrite H in E. inversion E. auto.
  Qed.

  (** C23 *)
  Lemma solve_errors cg stype a c s :
    (~ usable_flow (g_num g) a ->
       exists e, ll_solve ls g cg stype a c s = (Err e, s) /\
                 (e = RuntimeError \/ (e = ValueError /\ exists d, a = Some d /\ als d <> None))) /\
    (~ usable_flow (g_num g) a -> (forall d, a = Some d -> als d = None) ->
       ll_solve ls g cg stype a c s = (Err RuntimeError, s)) /\
    (usable_flow (g_num g) a -> stype <> "linear"%string ->
       fst (ll_solve ls g cg stype a c s) = Err RuntimeError) /\
    (usable_flow (g_num g) a -> stype = "linear"%string ->
       fst (ll_solve ls g cg stype a c s) = Ok TheResultsDict \/
       fst (ll_solve ls g cg stype a c s) = Err LinAlgError).
  Proof.
    assert (U : forall b, usable_flowb (g_num g) a = b -> (b = true <-> usable_flow (g_num g) a)).
    { intros b <-. apply usable_flow_spec. }
    unfold ll_solve, sbind.
    destruct (usable_flowb (g_num g) a) eqn:Eu.
    - specialize (U true eq_refl). assert (Ua : usable_flow (g_num g) a) by tauto.
      repeat split; try tauto.
      + intros _ Hst. destruct (process_aero_ok cg a s Eu) as (s1 & -> & _).
        destruct (control_cases c) as [Hc|Hc].
        * destruct (process_control_given s1 Hc) as (d & _ & ->).
          destruct (String.eqb_spec stype "linear"); [contradiction|]. reflexivity.
        * rewrite process_control_absent by auto.
          destruct (String.eqb_spec stype "linear"); [contradiction|]. reflexivity.
      + intros _ ->. destruct (process_aero_ok cg a s Eu) as (s1 & -> & _).
        destruct (control_cases c) as [Hc|Hc].
        * destruct (process_control_given s1 Hc) as (d & _ & ->). simpl.
          unfold linear_solve. destruct (ls _ _); auto.
        * rewrite process_control_absent by auto. simpl. unfold linear_solve. destruct (ls _ _); auto.
    - specialize (U false eq_refl). assert (Ua : ~ usable_flow (g_num g) a) by (intros K; apply U in K; discriminate).
      destruct (process_aero_err cg a s Eu) as (e & -> & He & Hr).
      repeat split; try tauto.
      + intros _. exists e. auto.
      + intros _ Hn. destruct He as [-> | (-> & d & E1 & E2)]; auto. exfalso. apply E2, Hn, E1.
  Qed.
End State.
