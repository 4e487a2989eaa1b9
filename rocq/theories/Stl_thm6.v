(** The blade sections of a propeller with several airfoils (C65). *)
From Coq Require Import Reals ZArith String Ascii Bool Arith List Lra Lia Permutation Sorted.
From Verif Require Import Base Num RVec Geometry Grid PropModel MU Spec_Prop Stl Spec_Stl Stl_thm2 Stl_thm4.
Import ListNotations.
Local Open Scope string_scope.
Local Open Scope R_scope.

Lemma interp_broken (pts : list (R * R)) z : pts <> [] -> rising pts -> interp_clamped pts z = broken_line pts z.
Proof.
  intros H1 H2. rewrite (interp_affine 1 0 pts pts z H1 H2); [ring|].
  clear. induction pts; constructor; auto. split; ring.
Qed.

Lemma placed_airfoils p zs : forall c, PropModel.coefficients (T := R) p zs = Ok c ->
  exists placed, placed_on p zs placed /\ forall z,
    k_al0 (c z) = broken_line (map (fun q => (fst q, af_alpha_L0 (snd q))) placed) z /\
    k_cla (c z) = broken_line (map (fun q => (fst q, af_CL_alpha (snd q))) placed) z /\
    k_clmax (c z) = broken_line (map (fun q => (fst q, af_CL_max (snd q))) placed) z /\
    k_cd0 (c z) = broken_line (map (fun q => (fst q, af_CD_0 (snd q))) placed) z /\
    k_cdl (c z) = broken_line (map (fun q => (fst q, af_CD_L (snd q))) placed) z /\
    k_cdl2 (c z) = broken_line (map (fun q => (fst q, af_CD_L2 (snd q))) placed) z.
Proof.
  intros c. unfold PropModel.coefficients, placed_on. destruct (pr_airfoils p) as [|[k a] [|[k' a'] r]]; cbn [map snd].
  - intros H. injection H as <-. exists [(0, default_airfoil "NACA2412")]. split; [reflexivity|]. intros z. repeat split; reflexivity.
  - intros H. injection H as <-. exists [(0, a)]. split; [reflexivity|]. intros z. repeat split; reflexivity.
  - destruct (rmap (span_of zs) (a :: a' :: map snd r)) as [x|] eqn:Ex; cbn [rbind]; [|discriminate].
    destruct (sort_span x) as [y|] eqn:Ey; cbn [rbind]; [|discriminate].
    intros H. injection H as <-. exists y. destruct (sort_span_spec _ _ Ey) as [P S].
    assert (G : forall l x, rmap (span_of zs) l = Ok x ->
       map snd x = l /\ Forall (fun q => airfoil_at zs (snd q) (fst q)) x).
    { clear. induction l as [|a l IH]; intros x H; simpl in H.
      - injection H as <-. split; [reflexivity|constructor].
      - destruct (span_of zs a) as [q|] eqn:Eq; [|discriminate]. cbn [rbind] in H.
        destruct (rmap (span_of zs) l) as [qs|]; [|discriminate]. injection H as <-.
        destruct (IH qs eq_refl) as [I1 I2]. destruct (span_of_spec _ _ _ Eq) as [S1 S2].
        split; [simpl; congruence|]. constructor; auto. now rewrite S1. }
    destruct (G _ _ Ex) as [G1 G2].
    assert (PM : Permutation (map snd y) (a :: a' :: map snd r)).
    { rewrite <- G1. now apply Permutation_map. }
    split.
    { split; [exact PM|]. split; [|exact S]. eapply Permutation_Forall; [apply Permutation_sym; exact P|auto]. }
    assert (Ny : y <> []). { intros ->. apply Permutation_length in PM. discriminate. }
    assert (K : forall f : airfoil R -> R, forall z,
      interp_clamped (map (fun q => (fst q, f (snd q))) y) z = broken_line (map (fun q => (fst q, f (snd q))) y) z).
    { intros f z. apply interp_broken; [destruct y; [congruence|discriminate]|]. apply rising_map; auto. }
    intros z. cbn [k_al0 k_cla k_clmax k_cd0 k_cdl k_cdl2].
    split; [exact (K (@af_alpha_L0 R) z)|]. split; [exact (K (@af_CL_alpha R) z)|]. split; [exact (K (@af_CL_max R) z)|].
    split; [exact (K (@af_CD_0 R) z)|]. split; [exact (K (@af_CD_L R) z)|exact (K (@af_CD_L2 R) z)].
Qed.

Lemma blade_sections E u wp (p : prop R) g : make_pgeom E u wp p = Ok g ->
  exists placed, placed_on p (map (@z_zeta R) (pg_stations g)) placed /\
    forall s, In s (pg_stations g) -> let along (f : airfoil R -> R) := broken_line (map (fun q => (fst q, f (snd q))) placed) (z_zeta s) in
      z_al0 s = along (@af_alpha_L0 R) /\ z_cla s = along (@af_CL_alpha R) /\ z_clmax s = along (@af_CL_max R) /\
      z_cd0 s = along (@af_CD_0 R) /\ z_cdl s = along (@af_CD_L R) /\ z_cdl2 s = along (@af_CD_L2 R).
Proof.
  intros H. destruct (pgeom_stations _ _ _ _ _ H) as (zs & H1 & H2 & _). rewrite H2.
  unfold make_pgeom, rbind in H. rewrite H1 in H.
  destruct (PropModel.coefficients p zs) as [c|] eqn:Ec; [|discriminate].
  destruct (pitch E p) as [b|]; [|discriminate].
  destruct (chord E p zs) as [cb|]; [|discriminate].
  destruct (make_motor p) as [m|]; [|discriminate].
  apply (f_equal (fun o => match o with Ok y => y | Err _ => g end)) in H. subst g.
  destruct (placed_airfoils p zs c Ec) as (placed & P1 & P2). exists placed. split; [exact P1|].
  intros s Hs. cbn [pg_stations] in Hs. apply in_map_iff in Hs. destruct Hs as (z & <- & _).
  unfold make_station. cbv zeta. cbn [z_al0 z_cla z_clmax z_cd0 z_cdl z_cdl2 z_zeta]. apply P2.
Qed.

(** Two airfoils, given tip first *)
Definition two_airfoils : prop R :=
  MkProp "main" (V3 1 0 0) 0 0 2 1 (1 / 5) 2 (VStr "CCW") [("type", VStr "default")] [("type", VStr "default")] []
    [("tip", MkAirfoil "NACA0009" (VStr "tip") 0 6 1 0 0 (1 / 100) 0 0);
     ("root", MkAirfoil "NACA4415" (VStr "root") (- 4 / 100) 5 1 0 0 (1 / 50) 0 0)].
Lemma two_made E u wp : exists g, make_pgeom E u wp two_airfoils = Ok g /\ List.length (pg_stations g) = 2%nat.
Proof.
  assert (HZ : zetas two_airfoils = Ok [1 / 5; 999 / 1000]).
  { unfold zetas. cbn [pr_diameter pr_hub pr_nodes two_airfoils]. rnum.
    replace (Reqb 1 0) with false by (symmetry; apply Reqb_false; lra). cbn [seq map].
    unfold linspace. cbn [Nat.leb Nat.eqb]. rnum. unfold Rdec.
    apply (f_equal Ok). apply (f_equal2 cons); [|apply (f_equal2 cons); [|reflexivity]].
    - simpl IZR. field.
    - reflexivity. }
  unfold make_pgeom. rewrite HZ. unfold rbind.
  assert (HC : exists c, PropModel.coefficients two_airfoils [1 / 5; 999 / 1000] = Ok c).
  { unfold PropModel.coefficients. cbn [two_airfoils pr_airfoils map snd]. unfold rmap, span_of.
    cbn [af_span_position is_root is_tip peq_str String.eqb Ascii.eqb Bool.eqb orb rbind].
    change (last_of [1 / 5; 999 / 1000]) with (Some (999 / 1000)). cbn [rbind].
    cbn [sort_span rbind insert_span fst snd]. rnum.
    replace (Reqb (999 / 1000) (1 / 5)) with false by (symmetry; apply Reqb_false; lra).
    replace (Rltb (999 / 1000) (1 / 5)) with false by (symmetry; apply Rltb_false; lra). cbn [rbind]. eauto. }
  destruct HC as [c ->]. unfold pitch, chord, make_motor, rbind, dlookup.
  cbn [two_airfoils pr_pitch pr_chord pr_motor pr_diameter].
  cbn [dget dgetd String.eqb Ascii.eqb Bool.eqb peq_str ptruthy].
  eexists. split; [reflexivity|]. reflexivity.
Qed.
