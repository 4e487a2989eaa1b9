(** Blade planform (C82): radii and chords listed by the blade distributions are the ones
    the input asks for. *)
From Coq Require Import Reals ZArith String Bool Arith Lia Lra List.
From Verif Require Import Base Num RVec Geometry Grid LLModel PropModel Spec_Grid Spec_LL Spec_Prop
     Spec_Blade Spec_Section Spec_Chord Prop_state LL_R LL_thm2 Prop_thm Prop_thm2 Prop_thm3 Prop_thm4 Prop_thm5 Prop_thm6 Prop_thm7 Prop_thm8
     Prop_thm9 Prop_thm10 Prop_thm11 Prop_chord Section_thm Demo_Blade Demo_Section.
Import ListNotations.
Local Open Scope string_scope.
Local Open Scope R_scope.

(** Whatever calls [h] went before, after a successful call of the propeller solver there is
    one row per blade node; row [i] has the radius of node [i] and the chord of the input
    there.  (A propeller with one node has no spacing: numpy then divides 0 by 0 in the linear
    chord; likewise when hub and last node coincide.) *)
Theorem C82_blade_planform :
  forall E cg n aero ps (gs : list (pgeom R)) h r ss' u wp p g s',
    props_solve E cg n aero ps gs (props_after E n gs h) = (Ok r, ss') ->
    In (g, s') (combine gs ss') ->
    make_pgeom E u wp p = Ok g -> (2 <= pr_nodes p)%nat -> pr_hub p <> 999 / 1000 * pr_diameter p ->
    List.length (prop_rows g s') = pr_nodes p /\
    forall i b, nth_error (prop_rows g s') i = Some b ->
      b_name b = pr_name p /\ node_radius p i (b_r b) /\ blade_chord (pe_table E) p (b_r b) (b_chord b).
Proof.
  intros E cg n aero ps gs h r ss' u wp p g s' H Hin Hg Hn Hh.
  destruct (solve_turn _ _ _ _ _ _ _ _ _ H (props_after_length E n gs h) g s' Hin) as (s & Hs & Hr).
  pose proof (Forall2_combine _ _ _ _ _ (props_after_sized E n gs h) Hs) as Hz.
  split; [exact (rows_count _ _ _ _ _ _ _ _ _ _ _ Hg Hr Hz)|].
  intros i b Hb. split; [|exact (C82_lemma _ _ _ _ _ _ _ _ Hg Hn Hh Hb)].
  rewrite (row_name _ _ _ _ Hb). destruct (make_pgeom_data _ _ _ _ _ Hg) as (_ & _ & _ & _ & En & _). exact En.
Qed.
Print Assumptions C82_blade_planform.

(** The chord asked for is one number. *)
Theorem C82_chord_unique :
  forall table (p : prop R) r c c', pr_hub p <> 999 / 1000 * pr_diameter p ->
    blade_chord table p r c -> blade_chord table p r c' -> c' = c.
Proof. exact chord_unique. Qed.
Print Assumptions C82_chord_unique.

(** So the linear chord is the root chord at the hub and the tip chord at the last node. *)
Theorem C82_linear_ends :
  forall E cg n aero ps (gs : list (pgeom R)) h r ss' u wp p g s' root tip,
    props_solve E cg n aero ps gs (props_after E n gs h) = (Ok r, ss') ->
    In (g, s') (combine gs ss') ->
    make_pgeom E u wp p = Ok g -> (2 <= pr_nodes p)%nat -> pr_hub p <> 999 / 1000 * pr_diameter p ->
    dget (pr_chord p) "type" = Some (VStr "linear") -> dget (pr_chord p) "root" = Some (VNum root) ->
    dgetd (pr_chord p) "tip" (VNum root) = VNum tip ->
    exists b0 bn, nth_error (prop_rows g s') 0 = Some b0 /\ nth_error (prop_rows g s') (pr_nodes p - 1) = Some bn /\
      b_r b0 = pr_hub p / 2 /\ b_chord b0 = root /\ b_r bn = 999 / 1000 * (pr_diameter p / 2) /\ b_chord bn = tip.
Proof.
  intros E cg n aero ps gs h r ss' u wp p g s' root tip H Hin Hg Hn Hh T V W.
  destruct (C82_blade_planform _ _ _ _ _ _ _ _ _ _ _ _ _ _ H Hin Hg Hn Hh) as [Hl Hr].
  exact (linear_ends _ _ _ _ _ _ Hn Hh T V W Hl (fun i b Hb => proj2 (Hr i b Hb))).
Qed.
Print Assumptions C82_linear_ends.

Lemma alone E cg ps (g : pgeom R) q s' : run_prop E cg (Some slow) ps g (init_pstate g) = (Ok q, s') ->
  exists r, props_solve E cg None (Some slow) ps [g] (props_after E None [g] []) = (Ok r, [s']).
Proof.
  intros H. unfold props_after. cbn [fold_left map]. unfold props_solve, sbind, calc_forces. cbn [run_props].
  rewrite H. destruct q as [[[F M] Th] l]. cbn [last_of]. eexists. reflexivity.
Qed.
(** The propeller of the examples of C66 meets the hypotheses, with default chords ... *)
Example C82_applies : exists E r g s',
  make_pgeom E (Some "English") None demo_prop = Ok g /\ (2 <= pr_nodes demo_prop)%nat /\
  pr_hub demo_prop <> 999 / 1000 * pr_diameter demo_prop /\
  props_solve E (V3 0 0 0) None (Some slow) (Some [("J", PNum (/ 2))]) [g] (props_after E None [g] []) = (Ok r, [s']).
Proof.
  destruct (blade_run (V3 0 0 0) [1 / 2; 1 / 3] eq_refl) as (m & g & q & s' & Hg & Hr & H1 & H2).
  destruct (alone _ _ _ _ _ _ Hr) as (r & Hs).
  exists (with_memory m blade_env), r, g, s'. split; [exact Hg|]. split; [cbn; lia|]. split; [cbn; lra|exact Hs].
Qed.
(** ... and one with linear chords. *)
Example C82_linear_applies : exists E r g s',
  make_pgeom E (Some "English") None (steep 1 1) = Ok g /\ (2 <= pr_nodes (steep 1 1))%nat /\
  pr_hub (steep 1 1) <> 999 / 1000 * pr_diameter (steep 1 1) /\
  props_solve E (V3 0 0 0) None (Some slow) (Some [("J", PNum (/ 2))]) [g] (props_after E None [g] []) = (Ok r, [s']) /\
  dget (pr_chord (steep 1 1)) "type" = Some (VStr "linear") /\
  dget (pr_chord (steep 1 1)) "root" = Some (VNum (1517 / 100000)) /\
  dgetd (pr_chord (steep 1 1)) "tip" (VNum (1517 / 100000)) = VNum (1517 / 100000).
Proof.
  destruct (steep_run 1 1) as (m & g & q & s' & b0 & b1 & Hg & Hr & _).
  { rewrite Rabs_pos_eq; lra. }
  destruct (alone _ _ _ _ _ _ Hr) as (r & Hs).
  exists (with_memory m blade_env), r, g, s'. split; [exact Hg|]. split; [cbn; lia|]. split; [cbn; lra|]. split; [exact Hs|].
  split; [reflexivity|]. split; reflexivity.
Qed.
