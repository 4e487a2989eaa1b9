(** Proofs of C82: radii and chords of the blade nodes. *)
From Coq Require Import Reals ZArith String Bool Arith Lia Lra List.
From Verif Require Import Base Num RVec Geometry Grid LLModel PropModel Spec_Grid Spec_LL Spec_Prop
     Spec_Blade Spec_Chord Prop_state LL_R LL_thm2 Prop_thm Prop_thm2 Prop_thm3 Prop_thm4 Prop_thm5 Prop_thm6 Prop_thm7 Prop_thm8
     Prop_thm9 Prop_thm10 Prop_thm11.
Import ListNotations.
Local Open Scope string_scope.
Local Open Scope R_scope.

Lemma pnum_numeric (v : pyval R) x : pnum v = Ok x -> numeric v x.
Proof.
  unfold numeric, number. destruct v as [| | | | | |]; try (match goal with b : bool |- _ => destruct b end); cbn [pnum]; intros H; try discriminate H;
    apply (f_equal (fun o => match o with Ok y => y | Err _ => 0 end)) in H; cbn in H; subst; eauto 6.
Qed.
Lemma peq_str_is (v : pyval R) s : peq_str v s = true -> v = VStr s.
Proof. destruct v; cbn [peq_str]; intros H; try discriminate. apply String.eqb_eq in H. now subst. Qed.
Lemma nth_zetas (p : prop R) zs i z : zetas p = Ok zs -> nth_error zs i = Some z ->
  pr_diameter p <> 0 /\ (i < pr_nodes p)%nat /\ z = linspace (pr_hub p / pr_diameter p) (999 / 1000) (pr_nodes p) i /\
  List.length zs = pr_nodes p.
Proof.
  unfold zetas. destruct (Reqb (pr_diameter p) 0) eqn:Ed; rnum; rewrite Ed; [discriminate|]. apply Reqb_false in Ed.
  intros H Hn. apply (f_equal (fun o => match o with Ok y => y | Err _ => zs end)) in H. subst zs.
  assert (Hi : (i < pr_nodes p)%nat).
  { destruct (le_lt_dec (pr_nodes p) i) as [K|K]; [|exact K]. rewrite (proj2 (nth_error_None _ _)) in Hn; [discriminate|]. now rewrite map_length, seq_length. }
  split; [exact Ed|]. split; [exact Hi|]. split; [|now rewrite map_length, seq_length].
  rewrite nth_error_map in Hn. rewrite (nth_error_nth' _ 0%nat) in Hn by now rewrite seq_length.
  rewrite seq_nth in Hn by exact Hi. cbn [option_map Nat.add] in Hn. injection Hn as <-.
  unfold Rdec. simpl IZR. reflexivity.
Qed.
Lemma linspace_eq a b n i : (2 <= n)%nat -> (i < n)%nat ->
  linspace (T := R) a b n i * INR (n - 1) = a * INR (n - 1 - i) + b * INR i.
Proof.
  intros Hn Hi. unfold linspace.
  replace (Nat.leb n 1) with false by (symmetry; apply Nat.leb_gt; lia).
  destruct (Nat.eqb_spec (S i) n) as [E|E].
  - replace (n - 1 - i)%nat with 0%nat by lia. replace i with (n - 1)%nat by lia. simpl (INR 0). ring.
  - rewrite !minus_INR by lia. replace (pred n) with (n - 1)%nat by lia.
    unfold nnat. rnum. rewrite <- !INR_IZR_INZ, minus_INR by lia.
    assert (INR n - INR 1 <> 0) by (rewrite <- minus_INR by lia; apply not_0_INR; lia).
    simpl (INR 1) in *. field. exact H.
Qed.
Lemma C82_lemma E u wp p (g : pgeom R) s i b : make_pgeom E u wp p = Ok g ->
  (2 <= pr_nodes p)%nat -> pr_hub p <> 999 / 1000 * pr_diameter p ->
  nth_error (prop_rows g s) i = Some b ->
  node_radius p i (b_r b) /\ blade_chord (pe_table E) p (b_r b) (b_chord b).
Proof.
  intros Hg Hn Hh Hb. unfold prop_rows in Hb. apply nth_blade_rows in Hb.
  destruct Hb as (z & _ & _ & _ & _ & _ & Hz & _ & _ & _ & _ & _ & F1 & F2 & _). rewrite F1, F2. clear F1 F2.
  unfold make_pgeom, rbind in Hg. destruct (zetas p) as [zs|] eqn:Ez; [|discriminate].
  destruct (coefficients p zs) as [c|]; [|discriminate].
  destruct (pitch E p) as [bt|]; [|discriminate].
  destruct (chord E p zs) as [cb|] eqn:Ec; [|discriminate].
  destruct (make_motor p) as [m|]; [|discriminate].
  apply (f_equal (fun o => match o with Ok y => y | Err _ => g end)) in Hg. subst g. cbn [pg_stations] in Hz.
  rewrite nth_error_map in Hz. destruct (nth_error zs i) as [ze|] eqn:Ei; [|discriminate].
  cbn [option_map] in Hz. injection Hz as <-. unfold make_station. cbn [z_r z_cb].
  destruct (nth_zetas _ _ _ _ Ez Ei) as (Hd & Hi & Eze & Hl).
  set (d := pr_diameter p) in *. set (h := pr_hub p) in *.
  assert (Er : radius d ze = ze * (d / 2)) by (unfold radius, Rdec; rnum; unfold Rdec; simpl IZR; field).
  rewrite Er.
  assert (Ek : ze * (d / 2) / (d / 2) = ze) by (field; exact Hd).
  assert (Esq : forall q : R, (1 - q * q)%num = 1 - (q * (d / 2) / (d / 2)) ^ 2) by (intros; rnum; field; exact Hd).
  assert (Ok_inj : forall f : R -> R, Ok f = Ok cb -> cb = f).
  { intros f H. apply (f_equal (fun o => match o with Ok y => y | Err _ => cb end)) in H. congruence. }
  pose proof (linspace_eq (h / d) (999 / 1000) (pr_nodes p) i Hn Hi) as Hl2. rewrite <- Eze in Hl2.
  split.
  { unfold node_radius. fold d h.
    replace (ze * (d / 2) * INR (pr_nodes p - 1)) with (ze * INR (pr_nodes p - 1) * (d / 2)) by ring.
    rewrite Hl2. field. exact Hd. }
  unfold chord, rbind, dlookup in Ec.
  destruct (dget (pr_chord p) "type") as [ty|] eqn:Et; [|discriminate].
  destruct (peq_str ty "default") eqn:K1.
  { apply peq_str_is in K1. subst ty. apply Ok_inj in Ec. subst cb. fold d.
    rewrite Esq. replace (ndec 75 3 * d)%num with (75 / 1000 * d) by (unfold Rdec; rnum; unfold Rdec; simpl IZR; field).
    now apply BC_default. }
  destruct (peq_str ty "from_file") eqn:K2.
  { apply peq_str_is in K2. subst ty. destruct (dget (pr_chord p) "filename") as [v|] eqn:Ef; [|discriminate].
    destruct v; cbn [pstr] in Ec; try discriminate. match goal with x : string |- _ => rename x into nm end.
    destruct (pe_table E nm) as [f|] eqn:Etab; [|discriminate]. apply Ok_inj in Ec. subst cb. fold d.
    replace (f ze * d / n2)%num with (f (ze * (d / 2) / (d / 2)) * (d / 2)) by (rewrite Ek; rnum; field).
    now apply (BC_file _ _ _ nm). }
  destruct (peq_str ty "linear") eqn:K3.
  { apply peq_str_is in K3. subst ty. destruct (dget (pr_chord p) "root") as [v|] eqn:Ev; [|discriminate].
    destruct (pnum v) as [root|] eqn:Pv; [|discriminate].
    destruct (pnum (dgetd (pr_chord p) "tip" v)) as [tip|] eqn:Pw; [|discriminate].
    destruct zs as [|z0 zs']; [discriminate|].
    destruct (last_of (z0 :: zs')) as [zl|] eqn:Ezl; [|discriminate]. apply Ok_inj in Ec. subst cb.
    destruct (nth_zetas _ _ 0%nat z0 Ez eq_refl) as (_ & H0 & E0 & _).
    destruct (nth_zetas _ _ _ zl Ez Ezl) as (_ & H1 & E1 & _).
    pose proof (linspace_eq (h / d) (999 / 1000) (pr_nodes p) 0 Hn H0) as L0. fold d h in E0. rewrite <- E0 in L0.
    pose proof (linspace_eq (h / d) (999 / 1000) (pr_nodes p) _ Hn H1) as L1. fold d h in E1. rewrite <- E1 in L1.
    rewrite Hl in L1. replace (pr_nodes p - 1 - pred (pr_nodes p))%nat with 0%nat in L1 by lia.
    replace (pr_nodes p - 1 - 0)%nat with (pr_nodes p - 1)%nat in L0 by lia. 
    replace (pred (pr_nodes p)) with (pr_nodes p - 1)%nat in L1 by lia.
    assert (Hnz : INR (pr_nodes p - 1) <> 0) by (apply not_0_INR; lia). simpl (INR 0) in L0, L1.
    assert (Z0 : z0 = h / d) by (apply (Rmult_eq_reg_r (INR (pr_nodes p - 1))); [rewrite L0; ring|exact Hnz]).
    assert (Zl : zl = 999 / 1000) by (apply (Rmult_eq_reg_r (INR (pr_nodes p - 1))); [rewrite L1; ring|exact Hnz]).
    apply (BC_linear _ _ _ v (dgetd (pr_chord p) "tip" v) root tip); auto using pnum_numeric.
    - unfold dgetd. destruct (dget (pr_chord p) "tip"); [now left|now right].
    - fold d h. unfold linear_interp. rnum. rewrite Z0, Zl.
      assert (999 / 1000 - h / d <> 0).
      { intros K. apply Hh. apply (Rmult_eq_compat_r d) in K. replace ((999 / 1000 - h / d) * d) with (999 / 1000 * d - h) in K by (field; exact Hd). lra. }
      assert (K2' : (999 / 1000 - h / d) * (d / 2) = 999 / 1000 * (d / 2) - h / 2) by (field; exact Hd).
      rewrite <- K2'. assert (K3' : ze * (d / 2) - h / 2 = (ze - h / d) * (d / 2)) by (field; exact Hd). rewrite K3'.
      generalize dependent (999 / 1000 - h / d). intros q. intros. field. split; assumption. }
  destruct (peq_str ty "elliptical") eqn:K4; [|discriminate].
  apply peq_str_is in K4. subst ty. destruct (dget (pr_chord p) "root") as [v|] eqn:Ev; [|discriminate].
  destruct (pnum v) as [root|] eqn:Pv; [|discriminate]. apply Ok_inj in Ec. subst cb. rewrite Esq.
  apply (BC_elliptical _ _ _ v); auto using pnum_numeric.
Qed.

Lemma blade_rows_name name : forall (ss : list (station R)) einf ei al cl cd vi vx vt i b,
  nth_error (blade_rows name ss einf ei al cl cd vi vx vt) i = Some b -> b_name b = name.
Proof.
  induction ss as [|z ss IH]; intros [|x1 l1] [|x2 l2] [|x3 l3] [|x4 l4] [|x5 l5] [|x6 l6] [|x7 l7] [|x8 l8] [|i] b;
    cbn [blade_rows nth_error]; intros H; try discriminate.
  - injection H as <-. reflexivity.
  - exact (IH _ _ _ _ _ _ _ _ _ _ H).
Qed.
Lemma row_name (g : pgeom R) s i b : nth_error (prop_rows g s) i = Some b -> b_name b = pg_name g.
Proof. apply blade_rows_name. Qed.
Lemma rows_count E cg aero ps u wp p (g : pgeom R) s q s' : make_pgeom E u wp p = Ok g ->
  run_prop E cg aero ps g s = (Ok q, s') -> sized g s -> List.length (prop_rows g s') = pr_nodes p.
Proof.
  intros Hg Hr Hs. destruct (solved_rows _ _ _ _ _ _ _ _ Hr Hs) as (K & _).
  apply (f_equal (@List.length R)) in K. rewrite !map_length in K. rewrite K.
  unfold make_pgeom, rbind in Hg. destruct (zetas p) as [zs|] eqn:Ez; [|discriminate].
  destruct (coefficients p zs) as [c|]; [|discriminate].
  destruct (pitch E p) as [bt|]; [|discriminate].
  destruct (chord E p zs) as [cb|] eqn:Ec; [|discriminate].
  destruct (make_motor p) as [m|]; [|discriminate].
  apply (f_equal (fun o => match o with Ok y => y | Err _ => g end)) in Hg. subst g. cbn [pg_stations].
  rewrite map_length. unfold zetas in Ez. destruct (pr_diameter p =? n0)%num; [discriminate|].
  apply (f_equal (fun o => match o with Ok y => y | Err _ => zs end)) in Ez. subst zs. now rewrite map_length, seq_length.
Qed.

Lemma numeric_unique v x y : numeric v x -> numeric v y -> y = x.
Proof. unfold numeric, number. intros [[H|(z & H & E)]|[[H E]|[H E]]] [[K|(z' & K & E')]|[[K E']|[K E']]]; subst; congruence. Qed.
Lemma chord_unique table (p : prop R) r c c' : pr_hub p <> 999 / 1000 * pr_diameter p ->
  blade_chord table p r c -> blade_chord table p r c' -> c' = c.
Proof.
  intros Hh H H'.
  destruct H as [T|nm f T F Tb|v w root tip c T V Nv W Nw L|v root T V Nv];
  destruct H' as [T'|nm' f' T' F' Tb'|v' w' root' tip' c' T' V' Nv' W' Nw' L'|v' root' T' V' Nv'];
    try (exfalso; rewrite T in T'; discriminate T').
  - reflexivity.
  - assert (nm' = nm) by congruence. subst nm'. rewrite Tb in Tb'. now apply (f_equal (fun o => match o with Ok y => y | Err _ => f end)) in Tb'; subst f'.
  - assert (v' = v) by congruence. subst v'. assert (root' = root) by (eapply numeric_unique; eauto). subst root'.
    assert (w' = w) by (destruct W as [W|[W ->]], W' as [W'|[W' ->]]; congruence). subst w'.
    assert (tip' = tip) by (eapply numeric_unique; eauto). subst tip'.
    assert (999 / 1000 * (pr_diameter p / 2) - pr_hub p / 2 <> 0) by lra.
    assert (K : (c' - root) * (999 / 1000 * (pr_diameter p / 2) - pr_hub p / 2) = (c - root) * (999 / 1000 * (pr_diameter p / 2) - pr_hub p / 2)) by congruence.
    apply Rmult_eq_reg_r in K; [lra|assumption].
  - assert (v' = v) by congruence. subst v'. assert (root' = root) by (eapply numeric_unique; eauto). now subst root'.
Qed.
Lemma linear_ends E p (g : pgeom R) s root tip : (2 <= pr_nodes p)%nat -> pr_hub p <> 999 / 1000 * pr_diameter p ->
  dget (pr_chord p) "type" = Some (VStr "linear") -> dget (pr_chord p) "root" = Some (VNum root) ->
    dgetd (pr_chord p) "tip" (VNum root) = VNum tip ->
  List.length (prop_rows g s) = pr_nodes p ->
  (forall i b, nth_error (prop_rows g s) i = Some b -> node_radius p i (b_r b) /\ blade_chord (pe_table E) p (b_r b) (b_chord b)) ->
  exists b0 bn, nth_error (prop_rows g s) 0 = Some b0 /\ nth_error (prop_rows g s) (pr_nodes p - 1) = Some bn /\
    b_r b0 = pr_hub p / 2 /\ b_chord b0 = root /\ b_r bn = 999 / 1000 * (pr_diameter p / 2) /\ b_chord bn = tip.
Proof.
  intros Hn Hh HT HV HW Hl H. set (rows := prop_rows g s) in *. clearbody rows.
  assert (Hnz : INR (pr_nodes p - 1) <> 0) by (apply not_0_INR; lia).
  assert (Hden : 999 / 1000 * (pr_diameter p / 2) - pr_hub p / 2 <> 0) by lra.
  assert (Line : forall i b, nth_error rows i = Some b ->
    (b_chord b - root) * (999 / 1000 * (pr_diameter p / 2) - pr_hub p / 2) = (tip - root) * (b_r b - pr_hub p / 2)).
  { intros i b Hb. destruct (H i b Hb) as [_ K].
    inversion K as [T E0|nm f T F Tb E0|v w root' tip' c T V Nv W Nw L E0|v root' T V Nv E0]; rewrite HT in T; try discriminate T.
    rewrite HV in V. injection V as <-.
    assert (Ew : w = VNum tip) by (rewrite <- HW; unfold dgetd; destruct W as [W|[W ->]]; now rewrite W). subst w. clear W.
    assert (root' = root) by (apply (numeric_unique (VNum root)); [left; now left|exact Nv]).
    assert (tip' = tip) by (apply (numeric_unique (VNum tip)); [left; now left|exact Nw]). subst. exact L. }
  destruct (nth_error rows 0) as [b0|] eqn:E0; [|apply nth_error_None in E0; lia].
  destruct (nth_error rows (pr_nodes p - 1)) as [bn|] eqn:En; [|apply nth_error_None in En; lia].
  exists b0, bn. split; [reflexivity|]. split; [reflexivity|].
  pose proof (proj1 (H _ _ E0)) as R0. pose proof (proj1 (H _ _ En)) as Rn. unfold node_radius in R0, Rn.
  replace (pr_nodes p - 1 - 0)%nat with (pr_nodes p - 1)%nat in R0 by lia.
  replace (pr_nodes p - 1 - (pr_nodes p - 1))%nat with 0%nat in Rn by lia. simpl (INR 0) in R0, Rn.
  assert (B0 : b_r b0 = pr_hub p / 2) by (apply (Rmult_eq_reg_r (INR (pr_nodes p - 1))); [rewrite R0; ring|exact Hnz]).
  assert (Bn : b_r bn = 999 / 1000 * (pr_diameter p / 2)) by (apply (Rmult_eq_reg_r (INR (pr_nodes p - 1))); [rewrite Rn; ring|exact Hnz]).
  pose proof (Line _ _ E0) as L0. pose proof (Line _ _ En) as Ln. rewrite B0 in L0. rewrite Bn in Ln.
  split; [exact B0|]. split.
  { assert (K : (b_chord b0 - root) * (999 / 1000 * (pr_diameter p / 2) - pr_hub p / 2) = 0 * (999 / 1000 * (pr_diameter p / 2) - pr_hub p / 2)) by (rewrite L0; ring).
    apply Rmult_eq_reg_r in K; [lra|exact Hden]. }
  split; [exact Bn|].
  apply Rmult_eq_reg_r in Ln; [lra|exact Hden].
Qed.
