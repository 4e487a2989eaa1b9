(** find_aero_center (C47). *)
From Coq Require Import Reals ZArith String Bool Arith Lia Lra List.
From Verif Require Import Base Num RVec Geometry Grid LLModel PropModel Spec_Grid Spec_LL LL_state LL_R MU Spec_MU MU_thm MU_thm2 MU_thm3 MU_thm4 MU_thm5 MU_thm8 MU_thm9.
Import ListNotations.
Local Open Scope string_scope.

Section Sweep.
  Context {T : Type} {N : num_ops T} {S : Type}.
  Variable H : host T S.
  Notation W := (world T S).
  Hypothesis keeps : forall a c s r a' s', h_solve H a c s = (r, a', s') ->
    an a' = an a /\ (als a <> None -> als a' <> None).

  Definition read_off (f : fm T) : T * T * T := (nopp (FZ f), nopp (FX f), MY f).
  (** the samples of the sweep: angle, call and forces *)
  Lemma sweep_ok base : forall xs (w : W) l w' a x0, sweep H xs w = (Ok l, w') -> w_aero w = Some a ->
    an a = dset base "alpha" x0 \/ an a = base ->
    exists ks fs a', l = map read_off fs /\ List.length fs = List.length xs /\ List.length ks = List.length xs /\
      (forall j k x, nth_error ks j = Some k -> nth_error xs j = Some x ->
         exists f, nth_error fs j = Some f /\ solved_at k (dset base "alpha" x) (w_ctl w) f) /\
      w' = MkW (Some a') (w_ctl w) (w_model w') (w_files w) (w_log w ++ ks) /\
      an a' = match xs with [] => an a | _ => dset base "alpha" (last xs n0) end.
  Proof.
    induction xs as [|x xs IH]; intros w l w' a x0 K Ea Ab.
    - cbn in K. injection K as <- <-. exists [], [], a. repeat split.
      + intros [|j] k x Hk; discriminate.
      + rewrite app_nil_r, <- Ea. now destruct w.
    - cbn [sweep] in K. rewrite (sbind_run _ _ _ _ _ (set_aero_run _ _ _ _ Ea)) in K.
      assert (Ad : dset (an a) "alpha" x = dset base "alpha" x) by (destruct Ab as [->| ->]; [apply dset_twice|reflexivity]).
      rewrite Ad in K.
      apply sbind_ok in K. destruct K as (f & w1 & K1 & K). apply sbind_ok in K. destruct K as (l1 & w2 & K2 & K).
      injection K as <- <-.
      match type of K1 with do_solve H ?v = _ =>
        destruct (do_solve_run H keeps v _ _ (MkAero (dset base "alpha" x) (als a)) K1 eq_refl) as (a1 & A1 & A1' & A2 & A3) end.
      { left. cbn. apply dset_nil. }
      cbn [w_ctl w_model w_files w_log an] in A1, A2, A3.
      assert (P1 : w_aero w1 = Some a1) by now rewrite A3. assert (P2 : w_ctl w1 = w_ctl w) by now rewrite A3.
      assert (P3 : w_files w1 = w_files w) by now rewrite A3.
      set (k1 := MkCall (MkAero (dset base "alpha" x) (als a)) (w_ctl w) (Ok f) (w_model w1)) in *.
      assert (P4 : w_log w1 = (w_log w ++ [k1])%list) by now rewrite A3.
      destruct (IH w1 l1 w2 a1 x K2 P1 (or_introl A1)) as (ks & fs & a' & -> & L1 & L2 & Q & Ew & Ea').
      exists (k1 :: ks), (f :: fs), a'. split; [reflexivity|]. split; [cbn; now rewrite L1|]. split; [cbn; now rewrite L2|].
      split; [|split].
      + intros [|j] k y Hk Hy; cbn in Hk, Hy.
        * injection Hk as <-. injection Hy as <-. exists f. repeat split.
        * rewrite <- P2. exact (Q j k y Hk Hy).
      + rewrite P2, P3, P4 in Ew. rewrite <- app_assoc in Ew. exact Ew.
      + rewrite Ea'. destruct xs; [exact A1|reflexivity].
  Qed.
End Sweep.

(** *** least squares *)
Local Open Scope R_scope.
Section Fits.
  Context {A : Type}.
  Variable p : list A.
  Definition tot (f : A -> R) : R := nsum (map f p).
  Lemma tot_ext f g : (forall z, In z p -> f z = g z) -> tot f = tot g.
  Proof. intros K. unfold tot. f_equal. now apply map_ext_in. Qed.
  Lemma tot_add f g : tot (fun z => f z + g z) = tot f + tot g.
  Proof. unfold tot. induction p as [|z l IH]; cbn [map]; rewrite ?nsum_nil, ?nsum_cons; [ring|rewrite IH; ring]. Qed.
  Lemma tot_scale k f : tot (fun z => k * f z) = k * tot f.
  Proof. unfold tot. induction p as [|z l IH]; cbn [map]; rewrite ?nsum_nil, ?nsum_cons; [ring|rewrite IH; ring]. Qed.
  Lemma tot_one : tot (fun _ => 1) = INR (List.length p).
  Proof.
    unfold tot. induction p as [|z l IH]; [reflexivity|]. cbn [map]. rewrite nsum_cons, IH. cbn [List.length].
    rewrite S_INR. ring.
  Qed.
  Lemma tot_sq_nonneg f : 0 <= tot (fun z => f z * f z).
  Proof. unfold tot. induction p as [|z l IH]; cbn [map]; rewrite ?nsum_nil, ?nsum_cons; [lra|nra]. Qed.
  Lemma tot_sq_zero f : tot (fun z => f z * f z) = 0 -> forall z, In z p -> f z = 0.
  Proof.
    intros K z Hz. unfold tot in K. induction p as [|y l IH]; [destruct Hz|].
    cbn [map] in K. rewrite nsum_cons in K.
    assert (0 <= nsum (map (fun z => f z * f z) l)).
    { clear. induction l as [|y l IH]; cbn [map]; rewrite ?nsum_nil, ?nsum_cons; [lra|nra]. }
    destruct Hz as [->|Hz]; [nra|]. apply IH; [nra|exact Hz].
  Qed.
  Lemma map2_maps {B C D} (h : B -> C -> D) (f : A -> B) (g : A -> C) : map2 h (map f p) (map g p) = map (fun z => h (f z) (g z)) p.
  Proof. induction p as [|z l IH]; [reflexivity|]. cbn. now rewrite IH. Qed.
  Lemma dot_tot (f g : A -> R) : dot (map f p) (map g p) = tot (fun z => f z * g z).
  Proof. unfold dot. now rewrite map2_maps. Qed.

  Lemma lift_fit_exact (s c : A -> R) (k a0 : R) z1 z2 : In z1 p -> In z2 p -> s z1 * c z2 <> s z2 * c z1 ->
    k <> 0 -> - PI / 2 < a0 < PI / 2 ->
    lift_fit (map s p) (map c p) (map (fun z => k * (s z - tan a0 * c z)) p) = (a0, k).
  Proof.
    intros H1 H2 Hne Hk Ha. unfold lift_fit. rewrite !dot_tot, !map2_maps, !dot_tot. set (t := tan a0) in *.
    set (SS := tot (fun z => s z * s z)). set (CC := tot (fun z => c z * c z)). set (P := tot (fun z => s z * c z)).
    assert (E1 : tot (fun z => k * (s z - t * c z) * c z) = k * (P - t * CC)).
    { rewrite (tot_ext _ (fun z => k * (s z * c z + (- t) * (c z * c z)))) by (intros; ring).
      rewrite tot_scale, tot_add, tot_scale. unfold P, CC. ring. }
    assert (E2 : tot (fun z => k * (s z - t * c z) * s z) = k * (SS - t * P)).
    { rewrite (tot_ext _ (fun z => k * (s z * s z + (- t) * (s z * c z)))) by (intros; ring).
      rewrite tot_scale, tot_add, tot_scale. unfold P, SS. ring. }
    assert (D : forall u, 0 < tot (fun z => (s z - u * c z) * (s z - u * c z))).
    { intros u. destruct (Rle_lt_or_eq_dec _ _ (tot_sq_nonneg (fun z => s z - u * c z))) as [Q|Q]; [exact Q|].
      symmetry in Q. pose proof (tot_sq_zero _ Q _ H1) as B1. pose proof (tot_sq_zero _ Q _ H2) as B2. cbn in B1, B2.
      exfalso. apply Hne. replace (s z1) with (u * c z1) by lra. replace (s z2) with (u * c z2) by lra. ring. }
    assert (D2 : forall u, tot (fun z => (s z - u * c z) * (s z - u * c z)) = SS - 2 * u * P + u * u * CC).
    { intros u. rewrite (tot_ext _ (fun z => s z * s z + ((- 2 * u) * (s z * c z) + (u * u) * (c z * c z)))) by (intros; ring).
      rewrite tot_add, tot_add, !tot_scale. unfold SS, P, CC. ring. }
    assert (C0 : CC <> 0).
    { intros Q. apply Hne. pose proof (tot_sq_zero c Q _ H1) as B1. pose proof (tot_sq_zero c Q _ H2) as B2. rewrite B1, B2. ring. }
    assert (Hd : P * P - SS * CC <> 0).
    { intros Q. pose proof (D (P / CC)) as B. rewrite D2 in B. 
      replace (SS - 2 * (P / CC) * P + P / CC * (P / CC) * CC) with ((SS * CC - P * P) / CC) in B by (field; exact C0).
      replace (SS * CC - P * P) with 0 in B by lra. unfold Rdiv in B. lra. }
    rewrite E1, E2. rnum.
    assert (E3 : (k * (P - t * CC) * SS - k * (SS - t * P) * P) / (k * (P - t * CC) * P - k * (SS - t * P) * CC) = t).
    { replace (k * (P - t * CC) * SS - k * (SS - t * P) * P) with (t * (k * (P * P - SS * CC))) by ring.
      replace (k * (P - t * CC) * P - k * (SS - t * P) * CC) with (k * (P * P - SS * CC)) by ring.
      field. split; [exact Hd|exact Hk]. }
    rewrite E3. assert (Et : atan t = a0) by (unfold t; apply atan_tan; lra). rewrite Et. fold t. f_equal.
    rewrite (tot_ext _ (fun z => k * ((s z - t * c z) * (s z - t * c z)))) by (intros; ring). rewrite tot_scale.
    field. specialize (D t). lra.
  Qed.

  Variable E : menv R.
  Hypothesis inv_exact : exact_inv (me_inv E).
  Lemma inv3 M B x0 x1 x2 b0 b1 b2 : me_inv E M = Some B -> List.length M = 3%nat ->
    map (fun row => row_times row [x0; x1; x2]) M = [b0; b1; b2] -> mat_vec B [b0; b1; b2] = [x0; x1; x2].
  Proof.
    intros K L Q. destruct (inv_exact _ _ K) as (_ & _ & _ & I). specialize (I [x0; x1; x2]). rewrite L in I. rewrite Q in I.
    exact (I eq_refl).
  Qed.

  Lemma drag_fit_exact (CL CD : A -> R) c0 c1 c2 r :
    (forall z, In z p -> CD z = c0 + c1 * CL z + c2 * CL z ^ 2) ->
    drag_fit E (map CL p) (map CD p) = Ok r -> r = (c0, c1, c2).
  Proof.
    intros Hz. unfold drag_fit, np_inv. set (M := [[_; _; _]; _; _]).
    destruct (me_inv E M) as [B|] eqn:K; [|discriminate].
    assert (Q : map (fun row => row_times row [c0; c1; c2]) M =
      [nsum (map CD p); dot (map CD p) (map CL p); dot (times (map CD p) (map CL p)) (map CL p)]).
    { subst M. unfold times. rewrite !map2_maps, !dot_tot. rewrite map_length. 
      cbn [map]. unfold row_times. cbn [map2]. rewrite !nsum_cons, !nsum_nil.
      change (nsum (map CL p)) with (tot CL). change (nsum (map CD p)) with (tot CD). cbn [nmul Rnum].
      unfold nnat. cbn [nint Rnum]. rewrite <- INR_IZR_INZ, <- tot_one.
      f_equal; [|f_equal; [|f_equal]].
      - rewrite (tot_ext CD (fun z => c0 * 1 + (c1 * CL z + c2 * (CL z * CL z)))) by (intros z Iz; rewrite (Hz z Iz); ring).
        rewrite !tot_add, !tot_scale. ring.
      - rewrite (tot_ext (fun z => CD z * CL z) (fun z => c0 * CL z + (c1 * (CL z * CL z) + c2 * (CL z * CL z * CL z)))) by (intros z Iz; rewrite (Hz z Iz); ring).
        rewrite !tot_add, !tot_scale. ring.
      - rewrite (tot_ext (fun z => CD z * CL z * CL z) (fun z => c0 * (CL z * CL z) + (c1 * (CL z * CL z * CL z) + c2 * (CL z * CL z * CL z * CL z)))) by (intros z Iz; rewrite (Hz z Iz); ring).
        rewrite !tot_add, !tot_scale. ring. }
    intros R0. cbv [rbind] in R0. cbv zeta in R0. rewrite (inv3 M B c0 c1 c2 _ _ _ K eq_refl Q) in R0. now injection R0.
  Qed.

  Lemma moment_fit_exact (s n c m : A -> R) c0 c1 c2 r :
    (forall z, In z p -> m z = c0 * s z + c1 * n z + c2 * c z) ->
    moment_fit E (map s p) (map n p) (map c p) (map m p) = Ok r -> r = (c0, c1, c2).
  Proof.
    intros Hz. unfold moment_fit, np_inv. set (M := [[_; _; _]; _; _]).
    destruct (me_inv E M) as [B|] eqn:K; [|discriminate].
    assert (Q : map (fun row => row_times row [c0; c1; c2]) M =
      [dot (map m p) (map s p); dot (map m p) (map n p); dot (map m p) (map c p)]).
    { subst M. rewrite !dot_tot. cbn [map]. unfold row_times. cbn [map2]. rewrite !nsum_cons, !nsum_nil.
      f_equal; [|f_equal; [|f_equal]].
      - rewrite (tot_ext (fun z => m z * s z) (fun z => c0 * (s z * s z) + (c1 * (s z * n z) + c2 * (s z * c z)))) by (intros z Iz; rewrite (Hz z Iz); ring).
        rewrite !tot_add, !tot_scale. ring.
      - rewrite (tot_ext (fun z => m z * n z) (fun z => c0 * (s z * n z) + (c1 * (n z * n z) + c2 * (n z * c z)))) by (intros z Iz; rewrite (Hz z Iz); ring).
        rewrite !tot_add, !tot_scale. ring.
      - rewrite (tot_ext (fun z => m z * c z) (fun z => c0 * (s z * c z) + (c1 * (n z * c z) + c2 * (c z * c z)))) by (intros z Iz; rewrite (Hz z Iz); ring).
        rewrite !tot_add, !tot_scale. ring. }
    intros R0. cbv [rbind] in R0. cbv zeta in R0. rewrite (inv3 M B c0 c1 c2 _ _ _ K eq_refl Q) in R0. now injection R0.
  Qed.
End Fits.

(** *** the sweep angles *)
Lemma angles_nth j : (j < 400)%nat -> nth_error (sweep_angles : list R) j = Some (-10 + INR j / 20).
Proof.
  intros Hj. unfold sweep_angles. rewrite nth_error_map.
  assert (E : nth_error (seq 0 400) j = Some j).
  { rewrite (nth_error_nth' _ 0%nat) by (rewrite seq_length; exact Hj). rewrite seq_nth by exact Hj. reflexivity. }
  rewrite E. cbn [option_map]. f_equal. unfold nnat. rnum. rewrite <- INR_IZR_INZ. unfold Rdec. cbn [IZR IPR IPR_2 Z.pow Z.pow_pos Pos.iter Z.mul Pos.mul].
  change (Z.of_nat 2) with 2%Z. cbn. field.
Qed.
Lemma angles_length : List.length (sweep_angles : list R) = 400%nat.
Proof. unfold sweep_angles. rewrite map_length. apply seq_length. Qed.
Lemma nth_error_last {A} (d : A) : forall l n x, List.length l = Datatypes.S n -> nth_error l n = Some x -> last l d = x.
Proof.
  induction l as [|y l IH]; [discriminate|]. intros [|n] x L K.
  - destruct l; [|discriminate]. now injection K.
  - cbn in L, K. injection L as L. destruct l; [discriminate|]. exact (IH n x L K).
Qed.
Lemma angles_last : last (sweep_angles : list R) n0 = 995 / 100.
Proof.
  apply (nth_error_last _ _ 399 _ angles_length). rewrite angles_nth by lia. f_equal.
  change 399%nat with (3 * 133)%nat. rewrite mult_INR. 
  replace (INR 3) with 3 by (cbn; ring). replace (INR 133) with 133; [field|].
  rewrite INR_IZR_INZ. reflexivity.
Qed.

Lemma combine_fst {A B} : forall (l : list A) (m : list B), List.length m = List.length l -> map fst (combine l m) = l.
Proof. induction l as [|x l IH]; intros [|y m] L; try discriminate; [reflexivity|]. cbn. f_equal. apply IH. now injection L. Qed.
Lemma combine_snd {A B} : forall (l : list A) (m : list B), List.length m = List.length l -> map snd (combine l m) = m.
Proof. induction l as [|x l IH]; intros [|y m] L; try discriminate; [reflexivity|]. cbn. f_equal. apply IH. now injection L. Qed.
Lemma in_combine_nth {A B} : forall (l : list A) (m : list B) x y, In (x, y) (combine l m) ->
  exists j, nth_error l j = Some x /\ nth_error m j = Some y.
Proof.
  induction l as [|a l IH]; intros [|b m] x y K; try destruct K.
  - injection H as -> ->. now exists 0%nat.
  - destruct (IH m x y H) as (j & K). now exists (Datatypes.S j).
Qed.
Lemma nth_in_combine {A B} : forall (l : list A) (m : list B) j x y, nth_error l j = Some x -> nth_error m j = Some y -> In (x, y) (combine l m).
Proof.
  induction l as [|a l IH]; intros m [|j] x y K L; try discriminate; destruct m as [|b m]; try discriminate; cbn in *.
  - left. congruence.
  - right. eauto.
Qed.

(** the calculation after the sweep *)
Definition center_calc (E : menv R) (r : refs R) (ao DP : R) (cg : vec3 R) (xs : list R) (l : list (R * R * R)) : res (vec3 R) :=
  let alpha := map nrad xs in
  let CN := map (fun q => ndiv (fst (fst q)) DP) l in
  let CA := map (fun q => ndiv (snd (fst q)) DP) l in
  let Cm := map (fun q => ndiv (ndiv (snd q) DP) (r_long r)) l in
  let ca := map ncos alpha in
  let sa := map nsin alpha in
  let CL := map2 nsub (times CN ca) (times CA sa) in
  let CD := map2 nadd (times CA ca) (times CN sa) in
  let (aL0, CL0_a) := lift_fit sa ca CL in
  rlet q := drag_fit E CL CD in
  let '(CD0, CD0_L, CD0_L2) := q in
  let s2a := map (fun x => nsin (nmul n2 x)) alpha in
  rlet q := moment_fit E s2a CN CA Cm in
  let '(Cm0_a, Cm_N, Cm_A) := q in
  let alphao := nrad ao in
  Ok (V3 (nadd (ac_x (r_long r) alphao CL0_a CD0 CD0_L2 Cm0_a Cm_N) (vx cg)) n0
         (nadd (ac_z (r_long r) alphao aL0 CL0_a CD0 CD0_L CD0_L2 Cm0_a Cm_A) (vz cg))).

Lemma center_calc_exact E r ao DP cg xs fs v (pl : polar) : exact_inv (me_inv E) ->
  List.length fs = List.length xs -> In 0 xs -> In (-10) xs ->
  p_slope pl <> 0 -> - PI / 2 < p_aL0 pl < PI / 2 ->
  (forall j x f, nth_error xs j = Some x -> nth_error fs j = Some f -> follows pl DP (r_long r) x f) ->
  center_calc E r ao DP cg xs (map read_off fs) = Ok v -> v = center_for pl (r_long r) ao cg.
Proof.
  intros He L I0 I10 Hs Ha Hf K. unfold center_calc in K. cbv zeta in K.
  set (p := combine xs fs).
  assert (E1 : xs = map fst p) by (symmetry; now apply combine_fst). assert (E2 : fs = map snd p) by (symmetry; now apply combine_snd).
  rewrite E1, E2 in K. rewrite !map_map in K. unfold times in K. rewrite !map2_maps in K.
  assert (Hp : forall z, In z p -> follows pl DP (r_long r) (fst z) (snd z)).
  { intros [x f] Iz. destruct (in_combine_nth _ _ _ _ Iz) as (j & J1 & J2). exact (Hf j x f J1 J2). }
  set (CL := fun z : R * fm R => - FZ (snd z) / DP * cos (degrees (fst z)) - - FX (snd z) / DP * sin (degrees (fst z))).
  set (CD := fun z : R * fm R => - FX (snd z) / DP * cos (degrees (fst z)) + - FZ (snd z) / DP * sin (degrees (fst z))).
  change (map (fun z : R * fm R => nsub (nmul (ndiv (fst (fst (read_off (snd z)))) DP) (ncos (nrad (fst z)))) (nmul (ndiv (snd (fst (read_off (snd z)))) DP) (nsin (nrad (fst z)))))  p)
    with (map CL p) in K.
  change (map (fun z : R * fm R => nadd (nmul (ndiv (snd (fst (read_off (snd z)))) DP) (ncos (nrad (fst z)))) (nmul (ndiv (fst (fst (read_off (snd z)))) DP) (nsin (nrad (fst z)))))  p)
    with (map CD p) in K.
  change (map (fun x : R * fm R => nsin (nrad (fst x))) p) with (map (fun z : R * fm R => sin (degrees (fst z))) p) in K.
  change (map (fun x : R * fm R => ncos (nrad (fst x))) p) with (map (fun z : R * fm R => cos (degrees (fst z))) p) in K.
  assert (EL : map CL p = map (fun z => p_slope pl * (sin (degrees (fst z)) - tan (p_aL0 pl) * cos (degrees (fst z)))) p).
  { apply map_ext_in. intros z Iz. exact (proj1 (Hp z Iz)). }
  rewrite EL in K at 1.
  assert (Fit : exists z1 z2, In z1 p /\ In z2 p /\ sin (degrees (fst z1)) * cos (degrees (fst z2)) <> sin (degrees (fst z2)) * cos (degrees (fst z1))).
  { apply In_nth_error in I0, I10. destruct I0 as (j0 & J0). destruct I10 as (j1 & J1).
    destruct (nth_error fs j0) as [f0|] eqn:F0. 2: { apply nth_error_None in F0. assert (nth_error xs j0 <> None) by congruence. apply nth_error_Some in H. lia. }
    destruct (nth_error fs j1) as [f1|] eqn:F1. 2: { apply nth_error_None in F1. assert (nth_error xs j1 <> None) by congruence. apply nth_error_Some in H. lia. }
    exists (0, f0), (-10, f1). split; [exact (nth_in_combine _ _ _ _ _ J0 F0)|]. split; [exact (nth_in_combine _ _ _ _ _ J1 F1)|].
    cbn [fst]. unfold degrees. replace (0 * PI / 180) with 0 by field. rewrite sin_0, cos_0.
    replace (-10 * PI / 180) with (- (PI / 18)) by field. rewrite sin_neg.
    pose proof PI_RGT_0. assert (0 < sin (PI / 18)) by (apply sin_gt_0; lra). lra. }
  destruct Fit as (z1 & z2 & Z1 & Z2 & Hne).
  rewrite (lift_fit_exact p _ _ (p_slope pl) (p_aL0 pl) z1 z2 Z1 Z2 Hne Hs Ha) in K.
  unfold rbind in K.
  destruct (drag_fit E (map CL p) (map CD p)) as [q1|] eqn:K1; [|discriminate].
  apply (drag_fit_exact p E He CL CD (p_CD0 pl) (p_CD1 pl) (p_CD2 pl)) in K1.
  2: { intros z Iz. exact (proj1 (proj2 (Hp z Iz))). }
  subst q1.
  match type of K with context [moment_fit E ?a ?b ?c ?d] => destruct (moment_fit E a b c d) as [q2|] eqn:K2; [|discriminate] end.
  apply (moment_fit_exact p E He _ _ _ _ (p_Cm0 pl) (p_CmN pl) (p_CmA pl)) in K2.
  2: { intros z Iz. exact (proj2 (proj2 (Hp z Iz))). }
  subst q2. injection K as <-. unfold center_for, ac_x, ac_z, degrees. cbv zeta. rnum.
  replace (2 * p_slope pl + 3 * p_CD0 pl - 2 * p_CD2 pl * p_slope pl ^ 2) with
    (2 * p_slope pl + 3 * p_CD0 pl - 2 * p_CD2 pl * p_slope pl * p_slope pl) by ring.
  f_equal; unfold Rdiv; ring.
Qed.

Section Center.
  Context {S : Type}.
  Variable H : host R S.
  Variable E : menv R.
  Notation W := (world R S).
  Hypothesis keeps : forall a c s r a' s', h_solve H a c s = (r, a', s') ->
    an a' = an a /\ (als a <> None -> als a' <> None).

  Lemma center_body_ok (w : W) v w' a : center_body H E w = (Ok v, w') -> w_aero w = Some a ->
    exists r ks fs a', h_refs H = Some r /\ List.length ks = 400%nat /\ List.length fs = 400%nat /\
      (forall j k, nth_error ks j = Some k -> exists f, nth_error fs j = Some f /\
         solved_at k (dset (an a) "alpha" (-10 + INR j / 20)) (w_ctl w) f) /\
      w' = MkW (Some a') (w_ctl w) (w_model w') (w_files w) (w_log w ++ ks) /\
      an a' = dset (an a) "alpha" (995 / 100) /\
      center_calc E r (dgetd (an a) "alpha" 0) (dpa (an a) r) (h_cg H) sweep_angles (map read_off fs) = Ok v.
  Proof.
    intros K Ea. unfold center_body in K.
    rewrite (sbind_run _ _ _ _ _ (get_aero_some _ _ _ _ Ea)) in K.
    apply sbind_ok in K. destruct K as (DP & w1 & K1 & K).
    destruct (dpa_ok H _ _ _ _ K1 Ea) as (r & Hr & -> & ->).
    apply sbind_ok in K. destruct K as (l & w2 & K2 & K).
    destruct (sweep_ok H keeps (an a) _ _ _ _ _ n0 K2 Ea (or_intror eq_refl)) as (ks & fs & a' & -> & L1 & L2 & Q & Ew & Ea').
    rewrite angles_length in L1, L2. clear K2.
    apply sbind_ok in K. destruct K as (r' & w3 & K3 & K). apply need_refs_ok in K3. destruct K3 as (Hr' & ->).
    assert (r' = r) by congruence. subst r'.
    exists r, ks, fs, a'. split; [exact Hr|]. split; [exact L2|]. split; [exact L1|].
    split.
    { intros j k Hk. assert (Hj : (j < 400)%nat) by (rewrite <- L2; apply nth_error_Some; congruence).
      exact (Q j k _ Hk (angles_nth j Hj)). }
    assert (Ea2 : an a' = dset (an a) "alpha" (995 / 100)).
    { rewrite Ea', angles_last. destruct (sweep_angles : list R) eqn:Es; [|reflexivity]. pose proof angles_length as Q0. rewrite Es in Q0. discriminate Q0. }
    assert (Kc : w' = w2 /\ center_calc E r (dgetd (an a) "alpha" 0) (dpa (an a) r) (h_cg H) sweep_angles (map read_off fs) = Ok v).
    { unfold center_calc. cbv zeta in K |- *. change (dgetd (an a) "alpha" n0) with (dgetd (an a) "alpha" 0) in K.
      generalize (sweep_angles : list R) K. intros xs K'. clear - K'.
      destruct (lift_fit _ _ _) as [aL0 CL0_a]. 
      apply sbind_ok in K'. destruct K' as (q & w5 & Q1 & K').
      destruct (drag_fit E _ _) as [q0|]; [|discriminate]. injection Q1 as -> ->. cbn [rbind].
      destruct q as [[CD0 CD0_L] CD0_L2]. apply sbind_ok in K'. destruct K' as (q & w6 & Q1 & K').
      destruct (moment_fit E _ _ _ _) as [q1|]; [|discriminate]. injection Q1 as -> ->. cbn [rbind].
      destruct q as [[Cm0 CmN] CmA]. injection K' as <- <-. auto. }
    destruct Kc as [-> Kc]. auto.
  Qed.

  Lemma center_given f (w : W) v w' a : find_aero_center H E f w = (Ok v, w') -> w_aero w = Some a -> given a ->
    exists r ks a', h_refs H = Some r /\ List.length ks = 400%nat /\
      (forall j k, nth_error ks j = Some k -> exists f, solved_at k (dset (an a) "alpha" (-10 + INR j / 20)) (w_ctl w) f) /\
      w' = MkW (Some a') (w_ctl w) (w_model w')
             (match named f with Some nm => dset (w_files w) nm [F_numbers [("x_ac", vx v); ("z_ac", vz v)]] | None => w_files w end)
             (w_log w ++ ks) /\
      an a' = dset (an a) "alpha" (995 / 100) /\
      forall pl : polar, exact_inv (me_inv E) -> p_slope pl <> 0 -> - PI / 2 < p_aL0 pl < PI / 2 ->
        (forall j k fm, nth_error ks j = Some k -> k_r k = Ok fm -> follows pl (dynamic_pressure (an a) * r_Sw r) (r_long r) (-10 + INR j / 20) fm) ->
        v = center_for pl (r_long r) (dgetd (an a) "alpha" 0) (h_cg H).
  Proof.
    intros K Ea Ga. unfold find_aero_center in K. apply sbind_ok in K. destruct K as (v' & w1 & K1 & K).
    rewrite (aero_given_some w a Ea Ga) in K1.
    unfold sbind in K. rewrite write_run in K. unfold sret in K. injection K as -> <-.
    destruct (center_body_ok _ _ _ _ K1 Ea) as (r & ks & fs & a' & Hr & L1 & L2 & Q & Ew & Ea' & Kc).
    exists r, ks, a'. split; [exact Hr|]. split; [exact L1|].
    split. { intros j k Hk. destruct (Q j k Hk) as (g & _ & G). eauto. }
    split.
    { assert (P1 : w_aero w1 = Some a') by now rewrite Ew. assert (P2 : w_ctl w1 = w_ctl w) by now rewrite Ew.
      assert (P3 : w_files w1 = w_files w) by now rewrite Ew. assert (P4 : w_log w1 = (w_log w ++ ks)%list) by now rewrite Ew.
      destruct (named f); [|exact Ew]. unfold put_file. cbn [w_aero w_ctl w_files w_log w_model]. now rewrite P1, P2, P3, P4. }
    split; [exact Ea'|].
    intros pl He Hs Ha Hf. rewrite dpa_pressure in Kc.
    refine (center_calc_exact E r _ _ _ _ fs v pl He _ _ _ Hs Ha _ Kc).
    - rewrite angles_length. exact L2.
    - apply (nth_error_In _ 200). rewrite angles_nth by lia. f_equal. replace (INR 200) with 200; [field|]. rewrite INR_IZR_INZ. reflexivity.
    - apply (nth_error_In _ 0). rewrite angles_nth by lia. f_equal. cbn [INR]. field.
    - intros j x g Hx Hg. assert (Hj : (j < 400)%nat). { rewrite <- angles_length. apply nth_error_Some. congruence. }
      rewrite (angles_nth j Hj) in Hx. injection Hx as <-.
      destruct (nth_error ks j) as [k|] eqn:Hk. 2: { apply nth_error_None in Hk. lia. }
      destruct (Q j k Hk) as (g' & G1 & G2). rewrite Hg in G1. injection G1 as <-.
      exact (Hf j k g Hk (proj2 (proj2 G2))).
  Qed.

  Lemma center_omitted f (w : W) : aero_given w = false ->
    let v := find_aero_center H E f (put_aero (Some default_aero) w) in
    find_aero_center H E f w = (fst v, put_aero (w_aero w) (snd v)).
  Proof.
    intros G. cbv zeta. unfold find_aero_center, sbind. rewrite G.
    assert (G2 : aero_given (put_aero (Some default_aero) w) = true) by reflexivity. rewrite G2. unfold with_aero.
    destruct (center_body H E (put_aero (Some default_aero) w)) as [[v|e] w1]; [|reflexivity].
    rewrite !write_run. now destruct (named f).
  Qed.
End Center.
