(** An airplane with a parabolic polar, for the example of find_aero_center. *)
From Coq Require Import Reals ZArith String Bool Arith Lia Lra List.
From Verif Require Import Base Num RVec Geometry Grid LLModel PropModel Spec_Grid Spec_LL MU Spec_MU
  LL_R Linalg Linalg2 Prop_thm6 MU_thm MU_thm2 MU_thm4 MU_thm6 MU_thm8 MU_thm9 MU_thm10 MU_thm11 Demo_MU Demo_MU2.
Import ListNotations.
Local Open Scope string_scope.
Local Open Scope R_scope.

Section Gram.
  Context {A : Type}.
  Variable p : list A.
  Lemma gram3 (f g h : A -> R) M :
    (forall x y z, (forall q, In q p -> x * f q + y * g q + z * h q = 0) -> x = 0 /\ y = 0 /\ z = 0) ->
    M = [[tot p (fun q => f q * f q); tot p (fun q => f q * g q); tot p (fun q => f q * h q)];
         [tot p (fun q => f q * g q); tot p (fun q => g q * g q); tot p (fun q => g q * h q)];
         [tot p (fun q => f q * h q); tot p (fun q => g q * h q); tot p (fun q => h q * h q)]] ->
    exists B, gauss_inv M = Some B.
  Proof.
    intros Hi ->. destruct (gauss_inv _) as [B|] eqn:K; [eauto|]. exfalso. revert K. apply gauss_inv_finds.
    - unfold square. repeat constructor.
    - intros [|x [|y [|z [|]]]] L F; try discriminate L.
      apply Forall_cons_iff in F. destruct F as [F1 F]. apply Forall_cons_iff in F. destruct F as [F2 F].
      apply Forall_cons_iff in F. destruct F as [F3 _].
      unfold row_times in F1, F2, F3. cbn [map2] in F1, F2, F3. rewrite !nsum_cons, !nsum_nil in F1, F2, F3.
      destruct (Hi x y z) as (-> & -> & ->); [|repeat constructor].
      apply tot_sq_zero.
      rewrite (tot_ext p _ (fun q => x * x * (f q * f q) + (2 * x * y * (f q * g q) + (2 * x * z * (f q * h q) +
         (y * y * (g q * g q) + (2 * y * z * (g q * h q) + z * z * (h q * h q))))))) by (intros; ring).
      rewrite !tot_add, !tot_scale.
      set (ff := tot p (fun q => f q * f q)) in *. set (fg := tot p (fun q => f q * g q)) in *. set (fh := tot p (fun q => f q * h q)) in *.
      set (gg := tot p (fun q => g q * g q)) in *. set (gh := tot p (fun q => g q * h q)) in *. set (hh := tot p (fun q => h q * h q)) in *.
      transitivity (x * (ff * x + (fg * y + (fh * z + 0))) + y * (fg * x + (gg * y + (gh * z + 0))) + z * (fh * x + (gh * y + (hh * z + 0)))); [ring|].
      rewrite F1, F2, F3. ring.
  Qed.
  Lemma matvec3 M B b0 b1 b2 : gauss_inv M = Some B -> List.length M = 3%nat ->
    exists c0 c1 c2, mat_vec B [b0; b1; b2] = [c0; c1; c2].
  Proof.
    intros K L. destruct (gauss_inv_exact M B K) as (_ & _ & L' & _). rewrite L in L'.
    destruct B as [|r0 [|r1 [|r2 [|]]]]; try discriminate L'. cbn [mat_vec map]. eauto.
  Qed.
  Lemma drag_fit_runs (CL CD : A -> R) q1 q2 q3 : In q1 p -> In q2 p -> In q3 p ->
    CL q1 <> CL q2 -> CL q1 <> CL q3 -> CL q2 <> CL q3 ->
    exists r, drag_fit gauss_env (map CL p) (map CD p) = Ok r.
  Proof.
    intros I1 I2 I3 D1 D2 D3. unfold drag_fit, np_inv. set (M := [[_; _; _]; _; _]).
    destruct (gram3 (fun _ => 1) CL (fun z => CL z * CL z) M) as [B KB].
    - intros x y z H. pose proof (H q1 I1) as H1. pose proof (H q2 I2) as H2. pose proof (H q3 I3) as H3. cbn beta in H1, H2, H3.
      assert (E1 : y + z * (CL q1 + CL q2) = 0).
      { apply (Rmult_eq_reg_l (CL q1 - CL q2)); [|lra]. lra. }
      assert (E2 : y + z * (CL q1 + CL q3) = 0).
      { apply (Rmult_eq_reg_l (CL q1 - CL q3)); [|lra]. lra. }
      assert (E3 : z = 0).
      { apply (Rmult_eq_reg_l (CL q2 - CL q3)); [|lra]. lra. }
      subst z. assert (y = 0) by lra. subst y. repeat split; lra.
    - subst M. unfold times. rewrite !map2_maps, !dot_tot. rewrite map_length.
      change (nsum (map CL p)) with (tot p CL). unfold nnat. cbn [nint Rnum]. rewrite <- INR_IZR_INZ, <- tot_one. cbn [nmul Rnum].
      rewrite (tot_ext p (fun _ => 1 * 1) (fun _ => 1)) by (intros; ring).
      rewrite (tot_ext p (fun q => 1 * CL q) CL) by (intros; ring).
      rewrite (tot_ext p (fun q => 1 * (CL q * CL q)) (fun q => CL q * CL q)) by (intros; ring).
      rewrite (tot_ext p (fun q => CL q * CL q * CL q) (fun q => CL q * (CL q * CL q))) by (intros; ring).
      rewrite (tot_ext p (fun q => CL q * CL q * CL q * CL q) (fun q => CL q * CL q * (CL q * CL q))) by (intros; ring).
      reflexivity.
    - change (me_inv gauss_env M) with (gauss_inv M). rewrite KB. cbn [rbind].
      destruct (matvec3 M B (nsum (map CD p)) (dot (map CD p) (map CL p)) (dot (times (map CD p) (map CL p)) (map CL p)) KB eq_refl) as (c0 & c1 & c2 & ->).
      eauto.
  Qed.
  Lemma moment_fit_runs (s n c m : A -> R) :
    (forall x y z, (forall q, In q p -> x * s q + y * n q + z * c q = 0) -> x = 0 /\ y = 0 /\ z = 0) ->
    exists r, moment_fit gauss_env (map s p) (map n p) (map c p) (map m p) = Ok r.
  Proof.
    intros Hi. unfold moment_fit, np_inv. set (M := [[_; _; _]; _; _]).
    destruct (gram3 s n c M Hi) as [B KB].
    - subst M. rewrite !dot_tot. reflexivity.
    - change (me_inv gauss_env M) with (gauss_inv M). rewrite KB. cbn [rbind].
      destruct (matvec3 M B (dot (map m p) (map s p)) (dot (map m p) (map n p)) (dot (map m p) (map c p)) KB eq_refl) as (c0 & c1 & c2 & ->).
      eauto.
  Qed.
End Gram.

(** CL = sin(alpha), CD = 1, Cm = sin(2 alpha) - CN/4 + CA/10, at 8 times unit dynamic
    pressure (V_mag 10, rho 1/50, area 8). *)
Definition glider_polar : polar := MkPolar 1 0 1 0 0 1 (- 1 / 4) (1 / 10).
Definition g_CN (x : R) : R := sin (degrees x) * cos (degrees x) + sin (degrees x).
Definition g_CA (x : R) : R := cos (degrees x) - sin (degrees x) * sin (degrees x).
Definition g_Cm (x : R) : R := sin (2 * degrees x) - / 4 * g_CN x + / 10 * g_CA x.
Definition glider_forces (x : R) : fm R :=
  MkFM 0 0 0 (- (8 * g_CA x)) 0 (- (8 * g_CN x)) 0 (8 * g_Cm x) 0.
Definition glider : host R unit :=
  {| h_solve := fun a c s => (Ok (glider_forces (entry (an a) "alpha")), a, s);
     h_stalled := fun _ => Ok None; h_refs := Some (MkRefs 8 8 1); h_cg := V3 (-1) 0 0; h_parts := true |}.
Definition glider_aero : aero_state R := MkAero [("V_mag", 10); ("rho", 1 / 50); ("alpha", 2)] None.
Lemma glider_keeps a c s r a' s' : h_solve glider a c s = (r, a', s') -> an a' = an a /\ (als a <> None -> als a' <> None).
Proof. cbn. intros K. injection K as _ <- _. auto. Qed.
Lemma glider_pressure : dynamic_pressure (an glider_aero) * 8 = 8.
Proof. unfold dynamic_pressure. cbn. lra. Qed.
Lemma glider_follows x : follows glider_polar (dynamic_pressure (an glider_aero) * 8) 1 x (glider_forces x).
Proof.
  rewrite glider_pressure. unfold follows, glider_forces, g_Cm, g_CN, g_CA. cbn [FZ FX MY glider_polar p_slope p_aL0 p_CD0 p_CD1 p_CD2 p_Cm0 p_CmN p_CmA].
  set (s := sin (degrees x)). set (c := cos (degrees x)). assert (P : s * s + c * c = 1) by (unfold s, c; apply sin2_cos2).
  rewrite tan_0. split; [|split].
  - transitivity (s * (s * s + c * c)); [field|rewrite P; ring].
  - transitivity (s * s + c * c); [field|rewrite P; ring].
  - field.
Qed.

Lemma glider_sweep : forall xs (w : world R unit) a, w_aero w = Some a ->
  exists w', sweep glider xs w = (Ok (map (fun x => read_off (glider_forces x)) xs), w').
Proof.
  induction xs as [|x xs IH]; intros w a Ea; [eexists; reflexivity|].
  cbn [sweep]. unfold sbind, set_aero, smod. rewrite Ea. cbn [option_map].
  unfold do_solve. rewrite (aero_given_some (put_aero (Some (MkAero (dset (an a) "alpha" x) (als a))) w) _ eq_refl (given_set a "alpha" x)).
  unfold raw_solve. cbn [put_aero w_aero h_solve glider an]. rewrite entry_set.
  match goal with |- context [sweep glider xs ?w0] => destruct (IH w0 _ eq_refl) as (w' & K); rewrite K end.
  exists w'. reflexivity.
Qed.

Lemma degrees_small x : -10 <= x < 10 -> - PI / 6 < degrees x < PI / 6.
Proof. intros H. unfold degrees. pose proof PI_RGT_0. split; nra. Qed.
Lemma sweep_has j x : (j < 400)%nat -> x = -10 + INR j / 20 -> In x (sweep_angles : list R).
Proof. intros Hj ->. apply (nth_error_In _ j). now apply angles_nth. Qed.
Lemma has_0 : In 0 (sweep_angles : list R).
Proof. apply (sweep_has 200); [lia|]. rewrite INR_IZR_INZ. cbn. lra. Qed.
Lemma has_5 : In 5 (sweep_angles : list R).
Proof. apply (sweep_has 300); [lia|]. rewrite INR_IZR_INZ. cbn. lra. Qed.
Lemma has_m10 : In (-10) (sweep_angles : list R).
Proof. apply (sweep_has 0); [lia|]. cbn. lra. Qed.

Lemma glider_runs f (w : world R unit) : w_aero w = Some glider_aero ->
  exists v w', find_aero_center glider gauss_env f w = (Ok v, w').
Proof.
  intros Ea. pose proof PI_RGT_0 as Hpi.
  assert (S5 : 0 < sin (degrees 5)). { apply sin_gt_0; unfold degrees; lra. }
  assert (S10 : sin (degrees (-10)) < 0).
  { replace (degrees (-10)) with (- degrees 10) by (unfold degrees; lra). rewrite sin_neg.
    assert (0 < sin (degrees 10)) by (apply sin_gt_0; unfold degrees; lra). lra. }
  assert (S0 : sin (degrees 0) = 0). { replace (degrees 0) with 0 by (unfold degrees; lra). apply sin_0. }
  assert (C0 : cos (degrees 0) = 1). { replace (degrees 0) with 0 by (unfold degrees; lra). apply cos_0. }
  assert (C5 : cos (degrees 5) <> cos (degrees (-10))).
  { replace (degrees (-10)) with (- degrees 10) by (unfold degrees; lra). rewrite cos_neg.
    assert (cos (degrees 10) < cos (degrees 5)) by (apply cos_decreasing_1; unfold degrees; lra). lra. }
  assert (K : exists v w', center_body glider gauss_env w = (Ok v, w')).
  { unfold center_body. rewrite (sbind_run _ _ _ _ _ (get_aero_some _ _ _ _ Ea)).
    rewrite (sbind_run _ _ _ _ _ (dpa_run glider w glider_aero (MkRefs 8 8 1) eq_refl Ea)). rewrite dpa_pressure. cbn [r_Sw]. rewrite glider_pressure.
    destruct (glider_sweep sweep_angles w glider_aero Ea) as (w1 & K1). rewrite (sbind_run _ _ _ _ _ K1). clear K1.
    rewrite (sbind_run _ _ _ _ _ (need_run glider w1 (MkRefs 8 8 1) eq_refl)). cbn [r_long].
    pose proof has_0 as H0. pose proof has_5 as H5. pose proof has_m10 as H10.
    set (xs := sweep_angles : list R) in *. clearbody xs. cbv zeta. rewrite !map_map. unfold times. rewrite !map2_maps.
    destruct (lift_fit _ _ _) as [aL0 CL0].
    assert (Ex : forall x, nrad (T := R) x = degrees x) by (intros; reflexivity).
    match goal with |- context [drag_fit gauss_env (map ?CL xs) (map ?CD xs)] =>
      assert (ECL : forall x, CL x = sin (degrees x)) end.
    { intros x. cbn [read_off fst snd glider_forces FZ FX]. rnum. unfold g_CN, g_CA. change (x * PI / 180) with (degrees x).
      set (s := sin (degrees x)). set (c := cos (degrees x)). assert (P : s * s + c * c = 1) by (unfold s, c; apply sin2_cos2).
      transitivity (s * (s * s + c * c)); [field|rewrite P; ring]. }
    match goal with |- context [drag_fit gauss_env (map ?CL xs) (map ?CD xs)] =>
      destruct (drag_fit_runs xs CL CD 0 5 (-10) H0 H5 H10) as [[[c0 c1] c2] ->]; rewrite ?ECL; try lra end.
    cbn [slift sbind].
    match goal with |- context [moment_fit gauss_env (map ?s xs) (map ?n xs) (map ?c xs) (map ?m xs)] =>
      destruct (moment_fit_runs xs s n c m) as [[[d0 d1] d2] M];
      [assert (EN : forall x, n x = g_CN x) by (intros; cbn [read_off fst snd glider_forces FZ FX]; rnum; field);
       assert (EA : forall x, c x = g_CA x) by (intros; cbn [read_off fst snd glider_forces FZ FX]; rnum; field);
       assert (Es : forall x, s x = 2 * sin (degrees x) * cos (degrees x)) by (intros t; apply (sin_2a (degrees t)));
       intros x y z Q; pose proof (Q 0 H0) as Q0; pose proof (Q 5 H5) as Q5; pose proof (Q (-10) H10) as Q10;
       rewrite ?Es, ?EN, ?EA in Q0, Q5, Q10; clear Q EN EA Es|] end.
    { unfold g_CN, g_CA in *. rewrite S0, C0 in Q0. assert (z = 0) by lra. subst z.
      assert (E5 : (2 * x + y) * cos (degrees 5) + y = 0). { apply (Rmult_eq_reg_l (sin (degrees 5))); lra. }
      assert (E10 : (2 * x + y) * cos (degrees (-10)) + y = 0). { apply (Rmult_eq_reg_l (sin (degrees (-10)))); lra. }
      assert (E : 2 * x + y = 0). { apply (Rmult_eq_reg_l (cos (degrees 5) - cos (degrees (-10)))); lra. }
      rewrite E in E5. repeat split; lra. }
    unfold sbind, slift. rewrite M. eexists _, _. reflexivity. }
  destruct K as (v & w1 & K). unfold find_aero_center, sbind. rewrite (aero_given_some w _ Ea) by (left; discriminate). rewrite K, write_run.
  eexists _, _. reflexivity.
Qed.
