(** Editing the airplane of an existing MachUp object (C84). *)
From Coq Require Import Reals ZArith String Bool Arith Lia Lra List FunctionalExtensionality.
From Verif Require Import Base Num Geometry Api Grid LLModel PropModel MU Spec_MU Spec_Units Live Spec_Live MU_mirror2 MU_thm13.
Import ListNotations.
Local Open Scope string_scope.

Section Live.
  Context {T : Type} {N : num_ops T}.
  Variable E : menv T.
  Definition agrees (X : machup T) (pl : airplane T) : Prop :=
    (a_wings pl = [] <-> mm_grid X = None) /\ (a_props pl = [] <-> mm_props X = []) /\ (mm_grid X = None <-> mm_refs X = None).
  Lemma make_props_nil pe pl pts gs : make_props (T := T) pe pl pts = Ok gs -> (a_props pl = [] <-> gs = []).
  Proof.
    unfold make_props. destruct (a_props pl) as [|e l]; cbn [map rmap].
    - intros H. injection H as <-. tauto.
    - destruct (get_units pl) as [u|]; cbn [rbind]; [|discriminate].
      case (make_pgeom _ _ _ _); cbn [rbind]; [intros g|discriminate]. case (rmap _ _); cbn [rbind]; [intros q|discriminate].
      intros H. injection H as <-. split; discriminate.
  Qed.
  Lemma made_agrees pl X : make_machup E pl = Ok X -> agrees X pl.
  Proof.
    unfold make_machup, agrees. destruct (a_wings pl) as [|e l] eqn:Ew.
    - cbn [rbind]. destruct (a_props pl) as [|p q] eqn:Ep.
      + intros H. injection H as <-. cbn. tauto.
      + destruct (make_props _ _ _) as [gs|] eqn:K; [|discriminate]. cbn [rbind]. intros H. injection H as <-.
        apply make_props_nil in K. rewrite Ep in K. cbn. tauto.
    - destruct (make_grid true pl) as [g|]; [|discriminate]. cbn [rbind]. destruct (a_props pl) as [|p q] eqn:Ep.
      + intros H. injection H as <-. cbn. repeat split; discriminate || tauto.
      + destruct (make_props _ _ _) as [gs|] eqn:K; [|discriminate]. cbn [rbind]. intros H. injection H as <-.
        apply make_props_nil in K. rewrite Ep in K. cbn. split; [split; discriminate|]. split; [exact K|split; discriminate].
  Qed.
  Variable X : machup T.
  Variable pl : airplane T.
  Hypothesis HA : agrees X pl.
  Let Y := with_cg (a_cg pl) X.
  Lemma wings_flag : has_wings pl = match mm_grid X with Some _ => true | None => false end.
  Proof.
    destruct HA as ([H1 H2] & _). unfold has_wings. destruct (a_wings pl), (mm_grid X); auto; [now discriminate (H1 eq_refl)|now discriminate (H2 eq_refl)].
  Qed.
  Lemma props_flag : has_props pl = match mm_props X with [] => false | _ => true end.
  Proof.
    destruct HA as (_ & [H1 H2] & _). unfold has_props. destruct (a_props pl), (mm_props X); auto; [now discriminate (H1 eq_refl)|now discriminate (H2 eq_refl)].
  Qed.
  Lemma live_parts_same ps a c s : live_parts E X pl ps a c s = solve_parts E Y ps a c s.
  Proof.
    unfold live_parts, solve_parts. rewrite wings_flag, props_flag. cbn [Y with_cg mm_grid mm_props mm_cg mm_points].
    destruct (mm_props X) as [|g0 gs]; destruct (mm_grid X); reflexivity.
  Qed.
  Lemma live_host_same ps : live_host E X pl ps = host_of E Y ps.
  Proof.
    unfold live_host, host_of. f_equal.
    - apply functional_extensionality. intros a. apply functional_extensionality. intros c. apply functional_extensionality. intros s.
      now rewrite live_parts_same.
    - rewrite wings_flag. cbn [Y with_cg mm_refs]. destruct HA as (_ & _ & H & _). destruct (mm_grid X); [reflexivity|]. symmetry. now apply H.
    - rewrite wings_flag, props_flag. cbn [Y with_cg mm_grid mm_props]. destruct (mm_grid X), (mm_props X); reflexivity.
  Qed.
  Lemma live_solve_same ps f : live_solve E X pl ps f = mu_solve E Y ps f.
  Proof.
    apply functional_extensionality. intros w. unfold live_solve, mu_solve. rewrite live_host_same. destruct (opt_truthy _ _); [|reflexivity].
    now rewrite live_parts_same.
  Qed.
  Lemma live_distributions_same ps : live_distributions E X pl ps = distributions E Y ps 0 None.
  Proof.
    apply functional_extensionality. intros w. unfold live_distributions, distributions. rewrite live_host_same, wings_flag, props_flag.
    cbn [Y with_cg mm_grid mm_props mm_refs named]. unfold sbind, sret, sget. destruct (do_solve _ w) as [[r|e] w1]; [|reflexivity].
    destruct HA as (_ & _ & [H1 H2]). destruct (mm_grid X) as [g|].
    - destruct (mm_refs X) as [rf|]; [|now discriminate (H2 eq_refl)]. destruct (slift _ w1) as [[rows|e] w2]; [|reflexivity].
      destruct (mm_props X); reflexivity.
    - destruct (mm_props X); reflexivity.
  Qed.
End Live.

Lemma serve_live_same E X pl r s : agrees X pl -> serve_live E X pl r s = serve E (with_cg (a_cg pl) X) r s.
Proof.
  intros HA. unfold serve_live, serve. destruct r; rewrite ?(live_host_same E X pl HA), ?(live_solve_same E X pl HA), ?(live_distributions_same E X pl HA); reflexivity.
Qed.

(** *** edits *)
Lemma dset_some {A} (d : dict A) k v : dset d k v <> [].
Proof. destruct d as [|[k' v'] d]; cbn; [discriminate|]. destruct (String.eqb k k'); discriminate. Qed.
Section Edits.
  Context {T : Type} {N : num_ops T}.
  Implicit Types pl : airplane T.
  Ltac crack := repeat match goal with |- context [match ?x with _ => _ end] => destruct x eqn:?; cbn [fst snd] end.
  Lemma edit_wings c pl : a_wings pl <> [] -> a_wings (run_call c pl) <> [].
  Proof.
    intros H. destruct c; cbn [run_call]; try exact H.
    - unfold add_wing. crack; try exact H; cbn; try apply dset_some; auto.
    - unfold wing_airfoil. crack; exact H.
    - unfold wing_control_surface. crack; exact H.
    - unfold add_prop. crack; exact H.
    - unfold prop_airfoil. crack; exact H.
  Qed.
  Lemma edit_props c pl : a_props pl <> [] -> a_props (run_call c pl) <> [].
  Proof.
    intros H. destruct c; cbn [run_call]; try exact H.
    - unfold add_wing. crack; exact H.
    - unfold wing_airfoil. crack; exact H.
    - unfold wing_control_surface. crack; exact H.
    - unfold add_prop. crack; try exact H. cbn. apply dset_some.
    - unfold prop_airfoil. crack; try exact H. cbn. apply dset_some.
  Qed.
  Lemma edit_no_wings c pl : a_wings pl = [] -> (forall a b d e, c <> CAddWing a b d e) -> a_wings (run_call c pl) = [].
  Proof.
    intros H Hc. destruct c; cbn [run_call]; try exact H.
    - exfalso. now apply (Hc name connect_to side dims).
    - unfold wing_airfoil. crack; exact H.
    - unfold wing_control_surface. crack; exact H.
    - unfold add_prop. crack; exact H.
    - unfold prop_airfoil. crack; exact H.
  Qed.
  Lemma edit_no_props c pl : a_props pl = [] -> (forall a b, c <> CAddProp a b) -> a_props (run_call c pl) = [].
  Proof.
    intros H Hc. destruct c; cbn [run_call]; try exact H.
    - unfold add_wing. crack; exact H.
    - unfold wing_airfoil. crack; exact H.
    - unfold wing_control_surface. crack; exact H.
    - exfalso. now apply (Hc name dims).
    - unfold prop_airfoil. rewrite H. exact H.
  Qed.
  Lemma edit_cg c pl : (forall x y z, c <> CCg x y z) -> a_cg (run_call c pl) = a_cg pl.
  Proof.
    intros Hc. destruct c; cbn [run_call]; try reflexivity.
    - unfold add_wing. crack; reflexivity.
    - unfold wing_airfoil. crack; reflexivity.
    - unfold wing_control_surface. crack; reflexivity.
    - exfalso. now apply (Hc x y z).
    - unfold add_prop. crack; reflexivity.
    - unfold prop_airfoil. crack; reflexivity.
  Qed.
  Lemma agrees_edit X c pl : agrees X pl ->
    (a_wings pl <> [] \/ (forall a b d e, c <> CAddWing a b d e)) -> (a_props pl <> [] \/ (forall a b, c <> CAddProp a b)) ->
    agrees X (run_call c pl).
  Proof.
    intros (H1 & H2 & H3) Hw Hp. assert (W : a_wings (run_call c pl) = [] <-> a_wings pl = []).
    { split; intros K.
      - destruct (a_wings pl) eqn:Q; [reflexivity|]. exfalso. apply (edit_wings c pl); [rewrite Q; discriminate|exact K].
      - destruct Hw as [Hw|Hw]; [contradiction|]. now apply edit_no_wings. }
    assert (P : a_props (run_call c pl) = [] <-> a_props pl = []).
    { split; intros K.
      - destruct (a_props pl) eqn:Q; [reflexivity|]. exfalso. apply (edit_props c pl); [rewrite Q; discriminate|exact K].
      - destruct Hp as [Hp|Hp]; [contradiction|]. now apply edit_no_props. }
    split; [rewrite W; exact H1|]. split; [rewrite P; exact H2|exact H3].
  Qed.
End Edits.

Local Open Scope R_scope.
Lemma coordinate_upd old new : cg_upd (T := R) old new = coordinate old new.
Proof.
  unfold cg_upd, coordinate. destruct new as [x|]; [|reflexivity]. unfold ntruthy. rnum. destruct (Req_EM_T x 0) as [->|K].
  - now replace (Reqb 0 0) with true by (symmetry; now apply Reqb_true).
  - now replace (Reqb x 0) with false by (symmetry; now apply Reqb_false).
Qed.
Lemma live_session_same E X evs : forall pl s, agrees X pl -> no_new_kind pl evs ->
  live_session E X pl s evs = cg_session E X (a_cg pl) s evs.
Proof.
  induction evs as [|[c|r] evs IH]; intros pl s HA [Hw Hp]; [reflexivity| |].
  - assert (Kw : a_wings pl <> [] \/ (forall a b d e, c <> CAddWing a b d e)).
    { destruct Hw as [Hw|Hw]; [now left|]. right. intros a b d e ->. inversion_clear Hw. apply H. exact I. }
    assert (Kp : a_props pl <> [] \/ (forall a b, c <> CAddProp a b)).
    { destruct Hp as [Hp|Hp]; [now left|]. right. intros a b ->. inversion_clear Hp. apply H. exact I. }
    assert (N : no_new_kind (run_call c pl) evs).
    { split.
      - destruct Hw as [Hw|Hw]; [left; now apply edit_wings|right; now inversion_clear Hw].
      - destruct Hp as [Hp|Hp]; [left; now apply edit_props|right; now inversion_clear Hp]. }
    cbn [live_session cg_session]. rewrite (IH _ s (agrees_edit X c pl HA Kw Kp) N).
    destruct c; try (rewrite edit_cg by discriminate; reflexivity). cbn [run_call cg_location a_cg]. now rewrite !coordinate_upd.
  - cbn [live_session cg_session]. rewrite (serve_live_same E X pl r s HA). destruct (serve E (with_cg (a_cg pl) X) r s) as [x s'].
    f_equal. apply IH; [exact HA|]. split.
    + destruct Hw as [Hw|Hw]; [now left|right; now inversion_clear Hw].
    + destruct Hp as [Hp|Hp]; [now left|right; now inversion_clear Hp].
Qed.
Lemma C84_lemma E pl X s evs : make_machup E pl = Ok X -> no_new_kind pl evs ->
  live_session E X pl s evs = cg_session E X (a_cg pl) s evs.
Proof. intros H. apply live_session_same. now apply (made_agrees E). Qed.

(** *** The two halves for users *)
Lemma cg_session_kept E X evs : forall cg s, cg_session E X cg s (filter kept evs) = cg_session E X cg s evs.
Proof.
  induction evs as [|[c|r] evs IH]; intros cg s; [reflexivity| |].
  - destruct c; cbn [filter kept cg_session]; apply IH.
  - cbn [filter kept cg_session]. destruct (serve E (with_cg cg X) r s) as [x s']. f_equal. apply IH.
Qed.
Lemma no_new_kept pl evs : no_new_kind pl evs -> no_new_kind pl (filter kept evs).
Proof.
  intros [Hw Hp]. split; [destruct Hw as [Hw|Hw]; [now left|right]|destruct Hp as [Hp|Hp]; [now left|right]];
    rewrite Forall_forall in *; intros e He; apply filter_In in He; firstorder.
Qed.
Lemma C84_erase E pl X s evs : make_machup E pl = Ok X -> no_new_kind pl evs ->
  live_session E X pl s (filter kept evs) = live_session E X pl s evs.
Proof.
  intros H K. rewrite (C84_lemma E pl X s _ H (no_new_kept _ _ K)), (C84_lemma E pl X s _ H K). apply cg_session_kept.
Qed.

(** moving the centre of gravity is as good as making the object again *)
Lemma made_cg E x y z pl X : make_machup E pl = Ok X ->
  make_machup E (cg_location (T := R) x y z pl) = Ok (with_cg (a_cg (cg_location x y z pl)) X).
Proof.
  intros H. unfold make_machup in *. assert (G : make_grid true (cg_location x y z pl) = make_grid true pl).
  { apply make_grid_same. repeat split; reflexivity. }
  rewrite G. change (a_wings (cg_location x y z pl)) with (a_wings pl). change (a_props (cg_location x y z pl)) with (a_props pl).
  destruct (match a_wings pl with [] => Ok None | _ => rlet g := make_grid true pl in Ok (Some g) end) as [wings|]; [|discriminate]. cbn [rbind] in *.
  change (make_props (me_prop E) (cg_location x y z pl)) with (make_props (me_prop E) pl).
  destruct (match a_props pl with [] => Ok [] | _ => make_props (me_prop E) pl _ end) as [gs|]; [|discriminate]. cbn [rbind] in *.
  injection H as <-. reflexivity.
Qed.
Lemma made_cgs E cs : forall pl X, Forall is_cg cs -> make_machup E pl = Ok X ->
  make_machup E (run_calls cs pl) = Ok (with_cg (a_cg (run_calls cs pl)) X).
Proof.
  induction cs as [|c cs IH]; intros pl X Hc H.
  - cbn [run_calls fold_left]. rewrite H. f_equal. unfold make_machup in H.
    destruct (match a_wings pl with [] => Ok None | _ => rlet g := make_grid true pl in Ok (Some g) end) as [wings|]; [|discriminate]. cbn [rbind] in H.
    destruct (match a_props pl with [] => Ok [] | _ => make_props (me_prop E) pl _ end) as [gs|]; [|discriminate]. cbn [rbind] in H.
    injection H as <-. reflexivity.
  - inversion_clear Hc as [|? ? H1 H2]. destruct c; try contradiction.
    change (run_calls (CCg x y z :: cs) pl) with (run_calls cs (cg_location x y z pl)).
    now rewrite (IH _ _ H2 (made_cg E x y z pl X H)).
Qed.
Lemma live_edits E X cs evs : forall pl s, live_session E X pl s (map Edit cs ++ evs) = live_session E X (run_calls cs pl) s evs.
Proof. induction cs as [|c cs IH]; intros pl s; [reflexivity|]. exact (IH (run_call c pl) s). Qed.
Lemma live_asks E X X' pl rs : (forall r s, serve_live E X pl r s = serve E X' r s) ->
  forall s, live_session E X pl s (map Ask rs) = session E X' s rs.
Proof.
  intros H. induction rs as [|r rs IH]; intros s; [reflexivity|]. cbn [map live_session session]. rewrite H.
  destruct (serve E X' r s) as [x s']. f_equal. apply IH.
Qed.
Lemma C84_rebuilt E pl X cs : make_machup E pl = Ok X -> Forall is_cg cs ->
  exists X', make_machup E (run_calls cs pl) = Ok X' /\ init_mstate X' = init_mstate X /\
    forall s rs, live_session E X pl s (map Edit cs ++ map Ask rs) = session E X' s rs.
Proof.
  intros H Hc. exists (with_cg (a_cg (run_calls cs pl)) X). split; [now apply made_cgs|]. split; [reflexivity|].
  intros s rs. rewrite live_edits. apply live_asks. intros r s0. apply serve_live_same. assert (HA := made_agrees E pl X H).
  clear H. revert pl HA. induction Hc as [|c cs H1 H2 IH]; intros pl HA; [exact HA|].
  change (run_calls (c :: cs) pl) with (run_calls cs (run_call c pl)). apply IH.
  apply agrees_edit; [exact HA|right; intros ? ? ? ? ->; contradiction|right; intros ? ? ->; contradiction].
Qed.

(** a first propeller, or a first wing, added too late *)
Lemma late_prop E pl X pl' i s : make_machup E pl = Ok X -> a_props pl = [] -> a_props pl' <> [] ->
  given (fst (fst i)) -> serve_live E X pl' (Ask_solve i) s = (Err AttributeError, s).
Proof.
  intros H Hp Hp' Hg. apply made_agrees in H. destruct H as (_ & [H _] & _). specialize (H Hp).
  unfold serve_live, ask, live_solve. cbn [w_aero w_ctl w_model w_files w_log]. rewrite (opt_truthy_given _ Hg).
  unfold live_parts, has_props. destruct (a_props pl'); [contradiction|]. rewrite H. reflexivity.
Qed.
Lemma late_wing E pl X pl' i s : make_machup E pl = Ok X -> a_wings pl = [] -> a_wings pl' <> [] -> a_props pl' = [] ->
  given (fst (fst i)) -> serve_live E X pl' (Ask_solve i) s = (Err AttributeError, s).
Proof.
  intros H Hp Hp' Hn Hg. apply made_agrees in H. destruct H as ([H _] & _). specialize (H Hp).
  unfold serve_live, ask, live_solve. cbn [w_aero w_ctl w_model w_files w_log]. rewrite (opt_truthy_given _ Hg).
  unfold live_parts, has_props, has_wings. rewrite Hn. destruct (a_wings pl'); [contradiction|]. rewrite H. reflexivity.
Qed.
