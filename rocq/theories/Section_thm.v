(** Consequences of the laws of the blade sections (C70). *)
From Coq Require Import Reals ZArith String Bool Arith Lia Lra List.
From Verif Require Import Base Num RVec Geometry Grid LLModel PropModel Spec_Grid Spec_LL Spec_Prop
     Spec_Blade Spec_Stl Spec_Section Prop_state LL_R LL_thm2 Prop_thm Prop_thm2 Prop_thm3 Prop_thm4 Prop_thm5 Prop_thm6
     Prop_thm7 Prop_thm8 Prop_thm10 Prop_thm11.
Import ListNotations.
Local Open Scope string_scope.
Local Open Scope R_scope.

Lemma result_obeys p S b : blade_result p b -> one_airfoil p S -> 0 < pr_diameter p -> obeys_section S b.
Proof.
  intros (E & u & wp & g & cg & n & aero & ps & gs & h & r & ss' & s' & Hg & H & Hin & Hb) (k & a & Ha & ->) Hd.
  destruct (solve_turn _ _ _ _ _ _ _ _ _ H (props_after_length E n gs h) g s' Hin) as (s & Hs & Hr).
  destruct (C70_lemma _ _ _ _ _ _ _ _ _ _ _ Hg Hd Hr (Forall2_combine _ _ _ _ _ (props_after_sized E n gs h) Hs))
    as (placed & P1 & P2).
  unfold placed_on in P1. rewrite Ha in P1. subst placed. rewrite Forall_forall in P2. exact (P2 b Hb).
Qed.

Lemma proportional S b : obeys_section S b ->
  let alpha := degrees (b_alpha b) in
  alpha <> 0 -> Rabs alpha - stall_delay S (b_chord b / b_r b) < degrees 2 -> b_cl b = s_slope S * alpha.
Proof.
  cbv zeta. intros [[L1 L2] _] H0 H. destruct (Rlt_dec 0 (degrees (b_alpha b))) as [Hp|Hn].
  - rewrite Rabs_right in H by lra. destruct (L1 Hp) as (A & y & _ & [K _] & ->). rewrite (K H). ring.
  - rewrite Rabs_left in H by lra. destruct (L2 ltac:(lra)) as (A & y & _ & [K _] & ->). rewrite (K H). ring.
Qed.
Lemma at_stall S b : obeys_section S b -> let dl := stall_delay S (b_chord b / b_r b) in
  degrees (b_alpha b) = stall_up S + dl -> 0 < stall_up S + dl ->
  degrees 2 <= stall_up S < PI / 2 -> s_slope S <> 0 -> b_cl b = s_max S + s_slope S * dl.
Proof.
  cbv zeta. intros [[L1 _] _] Ha Hp Hs Hsl. rewrite Ha in L1. destruct (L1 Hp) as (A & y & F & [_ K] & ->).
  replace (stall_up S + stall_delay S (b_chord b / b_r b) - stall_delay S (b_chord b / b_r b)) with (stall_up S) in K by ring.
  destruct (K ltac:(lra)) as (w & _ & _ & [_ Hw] & _ & ->). rewrite (Hw eq_refl).
  pose proof PI_RGT_0 as Hpi. unfold degrees in Hs. assert (0 < 2 * PI / 180) by lra.
  rewrite F.
  - unfold stall_up. field. exact Hsl.
  - apply Rgt_not_eq, sin_gt_0; lra.
  - apply Rgt_not_eq, cos_gt_0; lra.
Qed.
Lemma broadside S b : obeys_section S b -> let dl := stall_delay S (b_chord b / b_r b) in
  Rabs (degrees (b_alpha b)) = PI / 2 -> stall_up S + Rabs dl < PI / 2 -> 0 <= stall_up S -> b_cd b = 129 / 100.
Proof.
  cbv zeta. intros [_ (D1 & D2 & D3)] Ha Hs H0. set (dl := stall_delay S (b_chord b / b_r b)) in *.
  assert (Hdl : - Rabs dl <= dl <= Rabs dl) by (unfold Rabs; destruct (Rcase_abs dl); lra).
  pose proof PI_RGT_0 as Hpi.
  destruct (Rlt_dec 0 (degrees (b_alpha b))) as [Hp|Hn].
  - rewrite Rabs_right in Ha by lra. rewrite Ha in *. destruct D2 as (B & _ & ->); [lra|lra|].
    unfold deep_stall_drag. rewrite sin_PI2, cos_PI2. lra.
  - assert (Ha' : degrees (b_alpha b) = - (PI / 2)).
    { destruct (Req_dec (degrees (b_alpha b)) 0) as [K|K]; [rewrite K, Rabs_R0 in Ha; lra|].
      rewrite Rabs_left in Ha; lra. }
    rewrite Ha' in *. destruct D3 as (B & _ & ->); [lra|].
    unfold deep_stall_drag. rewrite sin_neg, cos_neg, sin_PI2, cos_PI2. lra.
Qed.

Lemma fixed_unique A A' st m : sin st <> 0 -> cos st <> 0 -> lift_fixed A st m -> lift_fixed A' st m -> A = A'.
Proof.
  intros H1 H2 F F'. specialize (F H1 H2). specialize (F' H1 H2). unfold deep_stall_lift in *.
  apply (Rmult_eq_reg_r (cos st ^ 2 / sin st)).
  - unfold Rdiv in *. lra.
  - intros K. apply H2. assert (cos st ^ 2 = 0).
    { replace (cos st ^ 2) with (cos st ^ 2 / sin st * sin st) by (field; exact H1). rewrite K. ring. }
    apply Rmult_integral in H. destruct H; [assumption|lra].
Qed.
Lemma lift_unique a st A x y y' : section_lift a st A x y -> section_lift a st A x y' -> y = y'.
Proof.
  intros [L1 L2] [M1 M2]. destruct (Rlt_dec x (degrees 2)) as [H|H].
  - rewrite (L1 H), (M1 H). reflexivity.
  - destruct (L2 ltac:(lra)) as (w & _ & _ & _ & -> & ->). destruct (M2 ltac:(lra)) as (w' & _ & _ & _ & -> & ->). reflexivity.
Qed.
Lemma odd_lift S b b' : obeys_section S b -> obeys_section S b' ->
  s_zero_lift S = 0 -> s_slope S <> 0 -> 0 < stall_up S < PI / 2 ->
  b_chord b / b_r b = b_chord b' / b_r b' -> degrees (b_alpha b) <> 0 ->
  degrees (b_alpha b') = - degrees (b_alpha b) -> b_cl b' = - b_cl b.
Proof.
  assert (G : forall b b', obeys_section S b -> obeys_section S b' ->
    s_zero_lift S = 0 -> s_slope S <> 0 -> 0 < stall_up S < PI / 2 ->
    b_chord b / b_r b = b_chord b' / b_r b' -> 0 < degrees (b_alpha b) ->
    degrees (b_alpha b') = - degrees (b_alpha b) -> b_cl b' = - b_cl b).
  { clear b b'. intros b b' [[L1 _] _] [[_ L2] _] H0 Hsl Hst Hc Ha Ha'.
    rewrite <- Hc, Ha' in L2. destruct (L1 Ha) as (A & y & F & K & ->). destruct (L2 ltac:(lra)) as (A' & y' & F' & K' & ->).
    assert (Es : stall_down S = stall_up S) by (unfold stall_down; rewrite H0; ring). rewrite Es in *.
    replace (s_slope S * stall_up S) with (s_max S) in F' by (unfold stall_up; field; exact Hsl).
    assert (A' = A).
    { eapply fixed_unique; [| |exact F'|exact F]; [apply Rgt_not_eq, sin_gt_0; lra|apply Rgt_not_eq, cos_gt_0; lra]. }
    subst A'. rewrite Ropp_involutive in K'. rewrite (lift_unique _ _ _ _ _ _ K' K). ring. }
  intros O O' H0 Hsl Hst Hc Ha Ha'. destruct (Rlt_dec 0 (degrees (b_alpha b))) as [Hp|Hn].
  - now apply G.
  - assert (b_cl b = - b_cl b'); [|lra]. apply G; auto; lra.
Qed.

(** *** Drag of a symmetric section *)
Lemma uneven_drag S b b' : obeys_section S b -> obeys_section S b' ->
  s_zero_lift S = 0 -> s_cd1 S = 0 -> s_cd2 S = 0 ->
  b_chord b / b_r b = b_chord b' / b_r b' ->
  let dl := stall_delay S (b_chord b / b_r b) in let alpha := degrees (b_alpha b) in
  0 < stall_up S - dl < alpha -> alpha < stall_up S + dl -> alpha < PI / 2 ->
  s_cd0 S <= 129 / 100 * (sin (stall_up S - dl)) ^ 2 ->
  degrees (b_alpha b') = - alpha -> b_cd b < b_cd b'.
Proof.
  cbv zeta. intros [_ (D1 & _ & _)] [_ (_ & _ & D3)] H0 H1 H2 Hc Ha Ha2 Hp Hcd Ha'.
  rewrite <- Hc in D3. set (dl := stall_delay S (b_chord b / b_r b)) in *. set (al := degrees (b_alpha b)) in *.
  rewrite D1 by lra. rewrite Ha' in D3. destruct D3 as (B & K & ->); [lra|].
  set (dn := stall_up S - dl) in *. replace (dl - stall_up S) with (- dn) in K by (unfold dn; ring).
  rewrite cos_neg in K. assert (Hc0 : 0 < cos dn) by (apply cos_gt_0; lra).
  specialize (K ltac:(lra)). unfold deep_stall_drag, polar in *. rewrite H1, H2 in *. rewrite sin_neg, cos_neg in *.
  assert (Hs : sin dn < sin al) by (apply sin_increasing_1; lra).
  assert (Hs0 : 0 < sin dn) by (apply sin_gt_0; lra).
  assert (Hcc : cos al < cos dn) by (apply cos_decreasing_1; lra).
  assert (Hca : 0 < cos al) by (apply cos_gt_0; lra).
  set (c0 := s_cd0 S) in *. set (s0 := sin dn) in *. set (s1 := sin al) in *. set (q0 := cos dn) in *. set (q1 := cos al) in *.
  assert (HB : B * q0 = c0 - 129 / 100 * s0 ^ 2) by lra.
  assert (HB1 : B * q0 <= B * q1).
  { assert (B <= 0). { apply (Rmult_le_reg_r q0); lra. }
    assert (0 <= (- B) * (q0 - q1)) by (apply Rmult_le_pos; lra). lra. }
  assert (Hsq : s0 ^ 2 < s1 ^ 2) by nra. lra.
Qed.
