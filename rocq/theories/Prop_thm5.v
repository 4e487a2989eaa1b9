(** Propeller theorems over the real numbers, part 5: uninitialised lift coefficients,
    errors, bounds of the slipstream. *)
From Coq Require Import Reals ZArith String Bool Arith Lia Lra List.
From Verif Require Import Base Num RVec Geometry Grid LLModel PropModel Spec_Grid Spec_LL Spec_Prop
     Prop_state LL_R LL_thm2 Prop_thm Prop_thm2 Prop_thm3 Prop_thm4.
Import ListNotations.
Local Open Scope string_scope.
Local Open Scope R_scope.

(** *** C52 *)
Lemma nth_error_mapi_from {A B} (f : nat -> A -> B) l : forall i j,
  nth_error (mapi_from f j l) i = option_map (f (j + i)%nat) (nth_error l i).
Proof.
  induction l as [|x l IH]; intros [|i] j; cbn; try reflexivity.
  - now rewrite Nat.add_0_r.
  - rewrite IH. now rewrite Nat.add_succ_r.
Qed.
Lemma nth_error_map2 {A B C} (f : A -> B -> C) l : forall l' i,
  nth_error (map2 f l l') i = match nth_error l i, nth_error l' i with
                              | Some a, Some b => Some (f a b) | _, _ => None end.
Proof.
  induction l as [|x l IH]; intros [|y l'] [|i]; cbn; try reflexivity.
  - now destruct (nth_error l i).
  - apply IH.
Qed.
Lemma nth_error_ext {A} (l : list A) : forall l', (forall i, nth_error l i = nth_error l' i) -> l = l'.
Proof.
  induction l as [|x l IH]; intros [|y l'] H; auto.
  - specialize (H 0%nat). discriminate.
  - specialize (H 0%nat). discriminate.
  - pose proof (H 0%nat) as H0. cbn in H0. injection H0 as ->. f_equal. apply IH. intros i. exact (H (S i)).
Qed.
Lemma nth_error_combine {A B} (l : list A) : forall (l' : list B) i a b,
  nth_error l i = Some a -> nth_error l' i = Some b -> nth_error (combine l l') i = Some (a, b).
Proof.
  induction l as [|s l IH]; intros [|e0 l'] [|i] a b H1 H2; try discriminate; cbn in *; [congruence|auto].
Qed.
Lemma get_CL_nth (mem : nat -> R) ss al i st a : nth_error ss i = Some st -> nth_error al i = Some a ->
  nth_error (get_CL mem ss al) i = Some (match cl_at st a with Some x => x | None => mem i end).
Proof.
  intros H1 H2. unfold get_CL, filled, mapi. rewrite nth_error_mapi_from, nth_error_map2, H1, H2. reflexivity.
Qed.
Lemma cl_at_zero (s : station R) : cl_at s 0 = None.
Proof.
  unfold cl_at. rnum. replace (Rltb 0 0) with false by (symmetry; apply Rltb_false; lra). reflexivity.
Qed.
Lemma cl_at_assigned (s : station R) a : a <> 0 -> cl_at s a <> None.
Proof.
  intros H. unfold cl_at. rnum. destruct (Rltb a 0) eqn:K; [discriminate|].
  destruct (Rltb 0 a) eqn:L; [discriminate|]. apply Rltb_false in K. apply Rltb_false in L. lra.
Qed.
Lemma get_CL_mem (ss : list (station R)) : forall al mem mem', Forall (fun a => a <> 0) al ->
  get_CL mem ss al = get_CL mem' ss al.
Proof.
  intros al mem mem' H. apply nth_error_ext. intros i. unfold get_CL, filled, mapi.
  rewrite !nth_error_mapi_from, nth_error_map2. destruct (nth_error ss i) as [st|]; [|reflexivity].
  destruct (nth_error al i) as [a|] eqn:Ka; [|reflexivity]. cbn [option_map].
  pose proof (cl_at_assigned st a) as Q. rewrite Forall_forall in H. apply nth_error_In in Ka. specialize (H _ Ka).
  destruct (cl_at st a); [reflexivity|]. now destruct (Q H).
Qed.
Lemma ei_function_nth mem k d bl (l : list (station R * (R * R))) i q : nth_error l i = Some q ->
  nth_error (ei_function mem k d bl l) i =
  Some (ei_residual k d bl (fst q) (fst (snd q)) (snd (snd q))
          (match cl_at (fst q) (z_beta (fst q) - fst (snd q) - snd (snd q)) with Some x => x | None => mem i end)).
Proof.
  intros H. unfold ei_function. rewrite nth_error_map2, H.
  erewrite get_CL_nth; [reflexivity| |]; rewrite nth_error_map, H; reflexivity.
Qed.

Definition with_memory (m : nat -> nat -> R) (E : penv R) : penv R :=
  MkPE (pe_table E) (pe_simps E) (fun _ => m) (pe_fuel E).

Lemma correct_ei_keeps b e : Rabs (b - e) < 1 -> correct_ei (T := R) b e (b - e) = b - e.
Proof.
  intros H. unfold correct_ei. rnum. replace (Rltb (Rabs (b - e)) 1) with true by (symmetry; now apply Rltb_true).
  replace (Reqb (nsign (b - e)) (nsign (b - e))) with true by (symmetry; now apply Reqb_true). reflexivity.
Qed.

(** first estimate of the induced angles *)
Definition guess (ss : list (station R)) (einf : list R) : list R := map2 (fun s e => z_beta s - e) ss einf.
Definition guessed (ss : list (station R)) (einf : list R) : list R :=
  map2 (fun s e => correct_ei (z_beta s) e (z_beta s - e)) ss einf.
Lemma esteps_still ss : forall einf x1 y,
  List.length einf = List.length ss -> List.length x1 = List.length ss -> List.length y = List.length ss ->
  filter e_moves (esteps (T := R) ss einf (guess ss einf) x1 y y) = [] /\
  map e_update (esteps ss einf (guess ss einf) x1 y y) = guessed ss einf.
Proof.
  assert (Z : forall s e a b c, e_moves (MkE s e a b a c c) = false :> bool).
  { intros s e a b c. unfold e_moves, ngtb, ei_error. cbn [e_y1 e_y0]. rnum. apply Rltb_false.
    rewrite Rminus_diag_eq by reflexivity. rewrite Rabs_R0. unfold Rdec. apply Rlt_le.
    apply Rdiv_lt_0_compat; [lra|]. apply IZR_lt. reflexivity. }
  induction ss as [|s ss IH]; intros [|e einf] [|x x1] [|c y]; cbn [List.length]; intros A B C; try discriminate.
  - split; reflexivity.
  - destruct (IH einf x1 y) as [I1 I2]; try lia.
    unfold guess, guessed in *. cbn [map2 esteps filter map]. rewrite Z. split; [exact I1|]. f_equal; [|exact I2].
    unfold e_update. rewrite Z. reflexivity.
Qed.

Lemma find_ei_still fuel k d bl ss einf c : (0 < fuel)%nat -> ss <> [] ->
  Forall (fun s => ei_a (T := R) k d s <> 0) ss ->
  List.length einf = List.length ss ->
  exists m : nat -> nat -> R, m 2%nat = c /\
    find_ei fuel m 0 k d bl ss einf (guess ss einf) = Ok (guessed ss einf, 2%nat).
Proof.
  intros Hfuel Hne Ha Hl. set (x0 := guess ss einf).
  assert (Hx0 : List.length x0 = List.length ss) by (unfold x0, guess; rewrite map2_min; lia).
  set (x1 := map (fun x => x * (1 + ndec 1 4) - ndec 1 4) x0).
  set (y1 := ei_function (fun _ => 0) k d bl (combine ss (combine einf x1))).
  set (l0 := combine ss (combine einf x0)).
  set (m0 := fun i => match nth_error l0 i, nth_error y1 i with
                      | Some q, Some y => (y + ei_b k bl (fst q) * tan (snd (snd q)) * sin (fst (snd q) + snd (snd q))) / ei_a k d (fst q)
                      | _, _ => 0 end).
  exists (fun t => match t with O => m0 | S O => fun _ => 0 | S (S O) => c | _ => fun _ => 0 end). split; [reflexivity|].
  unfold find_ei. cbv zeta. fold x0. rnum. change (map (fun x : R => x * (1 + Rdec 1 4) - Rdec 1 4) x0) with x1.
  fold l0. fold y1.
  assert (Hy1 : List.length y1 = List.length ss).
  { unfold y1. rewrite ei_function_length, !combine_length. unfold x1. rewrite map_length. lia. }
  assert (Ey : ei_function m0 k d bl l0 = y1).
  { apply nth_error_ext. intros i. destruct (nth_error l0 i) as [q|] eqn:K.
    - rewrite (ei_function_nth _ _ _ _ _ _ _ K).
      destruct (nth_error y1 i) as [y|] eqn:Ky.
      + f_equal.
        assert (Hq : z_beta (fst q) - fst (snd q) - snd (snd q) = 0).
        { unfold l0 in K.
          assert (Q : forall (ss : list (station R)) einf i q, nth_error (combine ss (combine einf (guess ss einf))) i = Some q ->
             snd (snd q) = z_beta (fst q) - fst (snd q)).
          { clear. induction ss as [|s ss IH]; intros [|e einf] [|i] q H; cbn in H; try discriminate.
            - injection H as <-. reflexivity.
            - eapply IH; eauto. }
          unfold x0 in K. rewrite (Q _ _ _ _ K). ring. }
        rewrite Hq, cl_at_zero. unfold m0. rewrite K, Ky. unfold ei_residual. rnum.
        assert (Hai : ei_a k d (fst q) <> 0).
        { rewrite Forall_forall in Ha. apply Ha. unfold l0 in K. apply nth_error_In in K. destruct q as [q1 q2].
          apply in_combine_l in K. exact K. }
        field. exact Hai.
      + exfalso. apply nth_error_None in Ky. assert (Hi : (i < List.length l0)%nat) by (apply nth_error_Some; congruence).
        unfold l0 in Hi. rewrite !combine_length in Hi. lia.
    - transitivity (@None R); [|symmetry]; apply nth_error_None; apply nth_error_None in K.
      + now rewrite ei_function_length.
      + rewrite Hy1. unfold l0 in K. rewrite !combine_length in K. lia. }
  rewrite Ey. destruct fuel as [|fuel]; [lia|]. cbn [ei_loop].
  destruct (esteps_still ss einf x1 y1 Hl) as [S1 S2]; [unfold x1; rewrite map_length; lia|exact Hy1|].
  unfold x0. rewrite S1, S2. reflexivity.
Qed.

Lemma C52_core_any E u wp (p : prop R) g cg a ps V rho n j c :
  make_pgeom E u wp p = Ok g ->
  dget (an a) "V_mag" = Some V -> dget (an a) "rho" = Some rho ->
  cos (degrees (entry (an a) "alpha")) <> 0 \/ cos (degrees (entry (an a) "beta")) <> 0 ->
  (forall s, p_Vinf s = V ->
     p_set_prop (pg_d g) (local_state ps (pg_name g)) s = (Ok tt, set_op n j None None s)) ->
  pr_diameter p <> 0 -> (0 < pe_fuel E)%nat -> pr_blades p <> 0%nat ->
  pg_stations g <> [] ->
  (forall z, In z (pg_stations g) -> z_zeta z <> 0 /\ z_cb z <> 0) ->
  exists m q s', run_prop (with_memory m E) cg (Some a) ps g (init_pstate g) = (Ok q, s') /\
    (p_n s' = n /\ p_J s' = j) /\ p_CL s' = get_CL (fun i => nth i c 0) (pg_stations g) (p_alpha s') /\
    p_einf s' = map (fun z => Ratan2 j (PI * z_zeta z)) (pg_stations g) /\
    p_ei s' = map (fun z => let e := Ratan2 j (PI * z_zeta z) in correct_ei (z_beta z) e (z_beta z - e)) (pg_stations g) /\
    p_alpha s' = map2 (fun q x => z_beta (fst q) - snd q - x) (combine (pg_stations g) (p_einf s')) (p_ei s').
Proof.
  intros Hg HV Hr Hs Hset Hd Hfuel Hk Hne Hz.
  destruct (make_pgeom_data _ _ _ _ _ Hg) as (E1 & E2 & E3 & E4 & E5 & E6 & _).
  set (ss := pg_stations g) in *. set (einf := advance_angles j ss).
  assert (Hl : List.length einf = List.length ss) by (unfold einf, advance_angles; apply map_length).
  assert (Hd' : pg_d g <> 0) by now rewrite E3.
  assert (Ha : Forall (fun s => ei_a (T := R) (pg_k g) (pg_d g) s <> 0) ss).
  { rewrite Forall_forall. intros z Hin. destruct (Hz z Hin) as (Z1 & Z2). unfold ei_a, chatb. rnum.
    assert (HkR : IZR (Z.of_nat (pg_k g)) <> 0).
    { rewrite E6. apply not_0_IZR. lia. }
    intros K. apply HkR.
    apply (Rmult_eq_reg_r (z_cb z / pg_d g / (8 * z_zeta z))).
    - rewrite Rmult_0_l, <- K. field. split; auto.
    - intros K2. apply Z2. apply (Rmult_eq_reg_r (/ pg_d g / (8 * z_zeta z))).
      + rewrite Rmult_0_l, <- K2. field. split; auto.
      + assert (/ (pg_d g * (8 * z_zeta z)) <> 0).
        { apply Rinv_neq_0_compat. apply Rmult_integral_contrapositive_currified; [exact Hd'|].
          apply Rmult_integral_contrapositive_currified; [lra|exact Z1]. }
        intros K3. apply H. rewrite <- K3. field. split; auto. }
  destruct (last_of ss) as [sl|] eqn:Kl.
  2:{ exfalso. unfold last_of in Kl. apply nth_error_None in Kl. destruct ss; [congruence|cbn in Kl; lia]. }
  destruct (find_ei_still (pe_fuel E) (pg_k g) (pg_d g) (z_beta sl) ss einf (fun i => nth i c 0) Hfuel Hne Ha Hl)
    as (m & Hm & Hf).
  exists m.
  set (v := freestream 1 (entry (an a) "alpha") (entry (an a) "beta")).
  set (s1 := set_flow_p v rho V (init_pstate g)).
  set (s2 := set_op n j None None s1).
  assert (K1 : p_set_aero (Some a) (init_pstate g) = (Ok tt, s1)).
  { unfold p_set_aero, opt_truthy. replace (aero_truthy a) with true.
    - rewrite HV, Hr, !dgetd_entry. reflexivity.
    - symmetry. unfold aero_truthy. apply orb_true_iff. left. unfold dtruthy.
      destruct (an a) as [|e0 l0]; [discriminate HV|reflexivity]. }
  assert (K2 : p_set_prop (pg_d g) (local_state ps (pg_name g)) s1 = (Ok tt, s2)) by (apply Hset; reflexivity).
  assert (K3 : exists s3, find_coefficients (with_memory m E) g s2 = (Ok tt, s3) /\ p_einf s3 = einf /\ p_ei s3 = guessed ss einf /\
     p_CL s3 = get_CL (fun i => nth i c 0) ss (p_alpha s3) /\
     p_alpha s3 = map2 (fun q x => z_beta (fst q) - snd q - x) (combine ss (p_einf s3)) (p_ei s3)).
  { unfold find_coefficients. cbv zeta. fold ss. rewrite Kl.
    change (p_J s2) with j. fold einf. change (p_clock s2) with 0%nat. change (pe_fuel (with_memory m E)) with (pe_fuel E).
    change (pe_mem (with_memory m E) (pg_name g)) with m.
    assert (Eg : first_guess ss einf (p_ei s2) = guess ss einf).
    { unfold first_guess. change (p_ei s2) with (repeat (0 : R) (List.length ss)).
      replace (existsb ntruthy (repeat 0 (List.length ss))) with false; [reflexivity|].
      symmetry. generalize (List.length ss). intros k. induction k as [|k IH]; [reflexivity|]. cbn [repeat existsb].
      rewrite IH, orb_false_r. unfold ntruthy. rnum. replace (Reqb 0 0) with true by (symmetry; now apply Reqb_true).
      reflexivity. }
    rewrite Eg, Hf. eexists. split; [reflexivity|]. split; [reflexivity|]. split; [reflexivity|]. split; [|reflexivity].
    cbn [p_CL p_alpha set_coeffs]. now rewrite Hm. }
  destruct K3 as (s3 & K3 & K3a & K3b & K3c & K3d).
  pose proof (find_coefficients_core _ _ _ _ _ K3) as Kcore.
  set (s4 := find_Vi ss s3).
  assert (Hv : vdot (p_v s4) (p_v s4) = 1).
  { unfold core in Kcore. change (p_v s4) with (p_v s3).
    replace (p_v s3) with v by (transitivity (p_v s2); [reflexivity|congruence]).
    eapply airflow_1_unit. apply freestream_airflow; [lra|]. apply not_both_right. exact Hs. }
  assert (Hu : vdot (pg_forward g) (pg_forward g) = 1) by (rewrite E1; apply propeller_axis_unit).
  assert (K4 : exists q, resolve g cg s4 = Ok q).
  { unfold resolve. rewrite (vec_angle_ok _ _ Hu (vopp_unit _ Hv)). unfold rbind.
    destruct (acos _ =? n0)%num; eexists; reflexivity. }
  destruct K4 as (q & K4). exists q, (set_forces q s4).
  split; [|split; [split|split; [|split; [|split]]]].
  - unfold run_prop, sbind. rewrite K1.
    rewrite K2. unfold p_calc_forces, sbind, sget. cbn [p_power p_throttle s2 set_op]. fold s2.
    rewrite K3. unfold smod, slift, sret. fold ss. fold s4. rewrite K4. reflexivity.
  - destruct q as [[[? ?] ?] ?]. unfold core in Kcore. transitivity (p_n s3); [reflexivity|].
    replace (p_n s3) with (p_n s2) by congruence. reflexivity.
  - destruct q as [[[? ?] ?] ?]. unfold core in Kcore. transitivity (p_J s3); [reflexivity|].
    replace (p_J s3) with (p_J s2) by congruence. reflexivity.
  - destruct q as [[[? ?] ?] ?]. exact K3c.
  - destruct q as [[[? ?] ?] ?]. exact K3a.
  - destruct q as [[[? ?] ?] ?]. transitivity (p_ei s3); [reflexivity|]. rewrite K3b.
    unfold guessed, einf, advance_angles. generalize ss. clear. intros ss. induction ss as [|z ss IH]; [reflexivity|].
    cbn [map map2]. f_equal. exact IH.
  - destruct q as [[[? ?] ?] ?]. exact K3d.
Qed.

Lemma C52_core_angles E u wp (p : prop R) g cg a ps V rho n j c :
  make_pgeom E u wp p = Ok g ->
  dget (an a) "V_mag" = Some V -> dget (an a) "rho" = Some rho ->
  cos (degrees (entry (an a) "alpha")) <> 0 \/ cos (degrees (entry (an a) "beta")) <> 0 ->
  (forall s, p_Vinf s = V ->
     p_set_prop (pg_d g) (local_state ps (pg_name g)) s = (Ok tt, set_op n j None None s)) ->
  pr_diameter p <> 0 -> (0 < pe_fuel E)%nat -> pr_blades p <> 0%nat ->
  pg_stations g <> [] ->
  (forall z, In z (pg_stations g) -> z_zeta z <> 0 /\ z_cb z <> 0 /\
     Rabs (z_beta z - Ratan2 j (PI * z_zeta z)) < 1) ->
  List.length c = List.length (pg_stations g) ->
  exists m q s', run_prop (with_memory m E) cg (Some a) ps g (init_pstate g) = (Ok q, s') /\
    (p_CL s' = c /\ p_n s' = n /\ p_J s' = j) /\
    p_einf s' = map (fun z => Ratan2 j (PI * z_zeta z)) (pg_stations g) /\
    p_ei s' = map (fun z => z_beta z - Ratan2 j (PI * z_zeta z)) (pg_stations g).
Proof.
  intros Hg HV Hr Hs Hset Hd Hfuel Hk Hne Hz Hc.
  destruct (C52_core_any E u wp p g cg a ps V rho n j c Hg HV Hr Hs Hset Hd Hfuel Hk Hne) as (m & q & s' & A & (B1 & B2) & C & D & F & G).
  { intros z Hin. destruct (Hz z Hin) as (Z1 & Z2 & _). auto. }
  assert (F' : p_ei s' = map (fun z => z_beta z - Ratan2 j (PI * z_zeta z)) (pg_stations g)).
  { rewrite F. apply map_ext_in. intros z Hin. cbv zeta. apply correct_ei_keeps. now destruct (Hz z Hin) as (_ & _ & H). }
  exists m, q, s'. split; [exact A|]. split; [|auto]. split; [|auto]. rewrite C.
  assert (Hal : p_alpha s' = map (fun _ => 0) (pg_stations g)).
  { rewrite G, D, F'. generalize (pg_stations g). clear. induction l as [|z l IH]; [reflexivity|].
    cbn [map combine map2 fst snd]. rewrite IH. f_equal. ring. }
  rewrite Hal. apply nth_error_ext. intros i. destruct (nth_error (pg_stations g) i) as [st|] eqn:Ki.
  - rewrite (get_CL_nth (fun i => nth i c 0) (pg_stations g) _ i st 0 Ki).
    + rewrite cl_at_zero. symmetry. apply nth_error_nth'. rewrite Hc. apply nth_error_Some. congruence.
    + rewrite nth_error_map, Ki. reflexivity.
  - transitivity (@None R); [|symmetry]; apply nth_error_None; apply nth_error_None in Ki; [|lia].
    unfold get_CL. rewrite filled_length, map2_min, map_length. lia.
Qed.

Lemma C52_core E u wp (p : prop R) g cg a ps V rho n j c :
  make_pgeom E u wp p = Ok g ->
  dget (an a) "V_mag" = Some V -> dget (an a) "rho" = Some rho ->
  cos (degrees (entry (an a) "alpha")) <> 0 \/ cos (degrees (entry (an a) "beta")) <> 0 ->
  (forall s, p_Vinf s = V ->
     p_set_prop (pg_d g) (local_state ps (pg_name g)) s = (Ok tt, set_op n j None None s)) ->
  pr_diameter p <> 0 -> (0 < pe_fuel E)%nat -> pr_blades p <> 0%nat ->
  pg_stations g <> [] ->
  (forall z, In z (pg_stations g) -> z_zeta z <> 0 /\ z_cb z <> 0 /\
     Rabs (z_beta z - Ratan2 j (PI * z_zeta z)) < 1) ->
  List.length c = List.length (pg_stations g) ->
  exists m q s', run_prop (with_memory m E) cg (Some a) ps g (init_pstate g) = (Ok q, s') /\
    p_CL s' = c /\ p_n s' = n /\ p_J s' = j.
Proof.
  intros. destruct (C52_core_angles E u wp p g cg a ps V rho n j c) as (m & q & s' & A & B & _); auto.
  exists m, q, s'. auto.
Qed.

Lemma local_own (l : dict (pval R)) name : l <> [] -> dget l name = None -> local_state (Some l) name = Some (PDict l).
Proof. intros H1 H2. unfold local_state. destruct l; [congruence|]. now rewrite H2. Qed.
Lemma set_by_J d j V name : V <> 0 -> j <> 0 -> d <> 0 -> name <> "J" -> forall s : pstate R, p_Vinf s = V ->
  p_set_prop d (local_state (Some [("J", PNum j)]) name) s = (Ok tt, set_op (V / (d * j)) j None None s).
Proof.
  intros HV0 Hj Hd HJ s HV. rewrite local_own.
  2:{ discriminate. }
  2:{ cbn [dget]. destruct (String.eqb_spec name "J"); [contradiction|reflexivity]. }
  unfold p_set_prop, sbind, smod. cbn [dget String.eqb Ascii.eqb Bool.eqb]. unfold slift, vnum, sget. cbn [p_Vinf set_op].
  rewrite HV. rnum. replace (Reqb j 0) with false by (symmetry; now apply Reqb_false).
  replace (Reqb V 0) with false by (symmetry; now apply Reqb_false). cbn [orb].
  unfold pydiv. rnum. replace (Reqb (d * j) 0) with false; [reflexivity|].
  symmetry. apply Reqb_false. apply Rmult_integral_contrapositive_currified; assumption.
Qed.
Lemma set_by_J_zero d m name : name <> "J" -> name <> "rot_per_sec" -> forall s : pstate R,
  p_set_prop d (local_state (Some [("J", PNum 0); ("rot_per_sec", PNum m)]) name) s = (Ok tt, set_op m 0 None None s).
Proof.
  intros HJ HR s. rewrite local_own.
  2:{ discriminate. }
  2:{ cbn [dget]. destruct (String.eqb_spec name "J"); [contradiction|].
      destruct (String.eqb_spec name "rot_per_sec"); [contradiction|reflexivity]. }
  unfold p_set_prop, sbind, smod. cbn [dget String.eqb Ascii.eqb Bool.eqb]. unfold slift, vnum, sget.
  rnum. replace (Reqb 0 0) with true by (symmetry; now apply Reqb_true). reflexivity.
Qed.
Lemma C52_lemma E u wp (p : prop R) g cg a V rho j c :
  make_pgeom E u wp p = Ok g ->
  dget (an a) "V_mag" = Some V -> dget (an a) "rho" = Some rho ->
  cos (degrees (entry (an a) "alpha")) <> 0 \/ cos (degrees (entry (an a) "beta")) <> 0 ->
  V <> 0 -> j <> 0 -> pr_diameter p <> 0 -> (0 < pe_fuel E)%nat -> pr_blades p <> 0%nat ->
  pg_stations g <> [] -> pr_name p <> "J" ->
  (forall z, In z (pg_stations g) -> z_zeta z <> 0 /\ z_cb z <> 0 /\
     Rabs (z_beta z - Ratan2 j (PI * z_zeta z)) < 1) ->
  List.length c = List.length (pg_stations g) ->
  exists m q s', run_prop (with_memory m E) cg (Some a) (Some [("J", PNum j)]) g (init_pstate g) = (Ok q, s') /\
    p_CL s' = c /\ p_n s' = V / (pr_diameter p * j) /\ p_J s' = j.
Proof.
  intros Hg HV Hr Hs HV0 Hj Hd Hfuel Hk Hne HJ Hz Hc.
  destruct (make_pgeom_data _ _ _ _ _ Hg) as (_ & _ & E3 & _ & E5 & _ & _).
  apply (C52_core E u wp p g cg a _ V rho _ _ c Hg HV Hr Hs); auto.
  rewrite E5, E3. intros s Hs'. apply set_by_J; auto.
Qed.

(** *** Errors of C50 *)
Lemma C50_refused E cg a ps g s V rho l e :
  dget (an a) "V_mag" = Some V -> dget (an a) "rho" = Some rho ->
  setting_of ps (pg_name g) = Some (PDict l) -> refused V (pg_motor g <> None) l e ->
  fst (run_prop (T := R) E cg (Some a) ps g s) = Err e.
Proof.
  intros HV Hr Hset Hbad. unfold run_prop.
  rewrite (p_set_prop_same (pg_d g) _ _ (local_setting ps (pg_name g))), Hset. unfold sbind.
  destruct (p_set_aero (Some a) s) as [o s1] eqn:K1.
  assert (HK : o = Ok tt /\ p_Vinf s1 = V).
  { unfold p_set_aero, opt_truthy in K1. replace (aero_truthy a) with true in K1.
    - rewrite HV, Hr in K1. unfold smod in K1. apply pair_equal_spec in K1. destruct K1 as [<- <-]. split; reflexivity.
    - symmetry. unfold aero_truthy. apply orb_true_iff. left. unfold dtruthy.
      destruct (an a) as [|e0 l0]; [discriminate HV|reflexivity]. }
  destruct HK as [-> EV].
  assert (Hl : l <> []).
  { intros ->. destruct Hbad as [(_ & _ & j & H & _)|[(_ & H & _)|[(_ & _ & H)|(_ & _ & _ & _ & (t & H) & _)]]];
    try discriminate H; congruence. }
  unfold p_set_prop. destruct l as [|e0 l0]; [congruence|]. set (l := e0 :: l0) in *. clearbody l.
  unfold sbind, smod.
  destruct Hbad as [(-> & H1 & j & H2 & H3)|[(-> & _ & H)|[(-> & H1 & H2)|(-> & H1 & H2 & H3 & (t & H4) & H5)]]].
  - rewrite H2. unfold slift, vnum, sget. cbn [p_Vinf set_op]. rewrite EV. rnum.
    replace (Reqb j 0 || Reqb V 0)%bool with true.
    + rewrite H1. reflexivity.
    + symmetry. apply orb_true_iff. rewrite !Reqb_true. exact H3.
  - rewrite !H by (cbn; tauto). reflexivity.
  - rewrite H1, H2. unfold slift, vnum, sget, pydiv. rnum. rewrite Rmult_0_l.
    replace (Reqb 0 0) with true by (symmetry; now apply Reqb_true). reflexivity.
  - rewrite H1, H2, H3, H4. unfold slift, vnum, p_calc_forces, sbind, sget. cbn [p_power p_throttle set_op].
    unfold state_from_power, sbind, sget. cbn [p_power p_throttle set_op].
    destruct (pg_motor g); [exfalso; apply H5; discriminate|]. reflexivity.
Qed.

Lemma C50_lemma E cg a ps g s q s' V :
  run_prop (T := R) E cg (Some a) ps g s = (Ok q, s') -> dget (an a) "V_mag" = Some V ->
  let set := setting_of ps (pg_name g) in let d := pg_d g in
  p_Vinf s' = V /\
  (empty_setting set -> p_J s' = 1 / 2 /\ p_n s' = V / (d * (1 / 2))) /\
  (forall l j, set = Some (PDict l) -> dget l "J" = Some (PNum j) ->
     p_J s' = j /\ (j <> 0 -> V <> 0 -> p_n s' = V / (d * j))) /\
  (forall l m, set = Some (PDict l) -> dget l "J" = None -> dget l "rot_per_sec" = Some (PNum m) ->
     p_n s' = m /\ m <> 0) /\
  ((forall l, set = Some (PDict l) -> dget l "J" <> Some (PNum 0)) -> V <> 0 -> p_n s' <> 0 ->
     p_J s' = V / (p_n s' * d)).
Proof.
  intros H HV. cbv zeta.
  destruct (run_prop_flow _ _ _ _ _ _ _ _ _ H HV) as (rho & _ & Hf).
  assert (EV : p_Vinf s' = V) by (unfold flow_of in Hf; congruence). clear Hf HV.
  destruct (run_prop_point _ _ _ _ _ _ _ _ H) as (n & J & pw & th & P & Q1 & Q2). clear H. rewrite EV in *.
  assert (S : local_state ps (pg_name g) = setting_of ps (pg_name g) \/
              (empty_setting (N := Rnum) (local_state ps (pg_name g)) /\
               empty_setting (N := Rnum) (setting_of ps (pg_name g)))).
  { destruct ps as [[|e0 d0]|]; cbn [local_state setting_of]; [right; split; exact eq_refl || exact I|now left|now left]. }
  split; [reflexivity|].
  set (loc := local_state ps (pg_name g)) in *. set (set := setting_of ps (pg_name g)) in *. clearbody loc set.
  assert (HH : / 2 = 1 / 2) by lra.
  (* empty local settings *)
  assert (Emp : empty_setting (N := Rnum) loc -> p_J s' = 1 / 2 /\ p_n s' = V / (pg_d g * (1 / 2)) /\ pg_d g <> 0).
  { intros He. assert (P' : J = / 2 /\ pg_d g <> 0 /\ n = V / (pg_d g * / 2) /\ pw = None /\ th = None).
    { destruct loc as [[x|l]|]; cbn in He; [exact P|subst l; exact P|exact P]. }
    destruct P' as (A & B & C & D & F). destruct (Q1 D F) as [-> ->]. rewrite A, C, HH. auto. }
  destruct S as [->|[S1 S2]].
  - split; [intros He; destruct (Emp He) as (A & B & _); auto|]. split; [|split].
    + intros l j -> Hj. unfold op_point in P. destruct l as [|e0 l0]; [discriminate|]. rewrite Hj in P.
      destruct P as (A & B & C & D). destruct (Q1 B C) as [-> ->]. split; [exact A|]. intros N1 N2.
      destruct D as [(_ & _ & _ & D)|([D|D] & _)]; [exact D|congruence|congruence].
    + intros l m -> HJ Hm. unfold op_point in P. destruct l as [|e0 l0]; [discriminate|]. rewrite HJ, Hm in P.
      destruct P as (A & B & C & D & F & G). destruct (Q1 F G) as [E1 E2]. rewrite E1. auto.
    + intros H0 HV Hn. unfold op_point in P. destruct set as [[x|[|e0 l0]]|]; cbn [empty_setting] in Emp.
      * destruct P as (A & B & C & D & F). destruct (Q1 D F) as [E1 E2]. rewrite E1, E2, A, C.
        field. split; [exact B|exact HV].
      * destruct P as (A & B & C & D & F). destruct (Q1 D F) as [E1 E2]. rewrite E1, E2, A, C.
        field. split; [exact B|exact HV].
      * specialize (H0 _ eq_refl). set (l := e0 :: l0) in *. clearbody l.
        destruct (dget l "J") as [[j|?]|]; [|contradiction|].
        { destruct P as (A & B & C & D). destruct (Q1 B C) as [E1 E2]. rewrite E1, E2, A.
          destruct D as [(D1 & D2 & D3 & ->)|([D|D] & _)]; [|subst j; congruence|congruence].
          field. repeat split; auto. }
        destruct (dget l "rot_per_sec") as [[m|?]|]; [|contradiction|].
        { destruct P as (A & B & C & D & F & G). destruct (Q1 F G) as [E1 E2]. rewrite E1, E2, D. reflexivity. }
        destruct (dget l "brake_power") as [[m|?]|]; [|contradiction|].
        { destruct P as (A & B). apply Q2. left. congruence. }
        destruct (dget l "electric_throttle") as [[m|?]|]; [|contradiction|contradiction].
        destruct P as (A & B). apply Q2. right. congruence.
      * destruct P as (A & B & C & D & F). destruct (Q1 D F) as [E1 E2]. rewrite E1, E2, A, C.
        field. split; [exact B|exact HV].
  - destruct (Emp S1) as (A & B & C).
    split; [auto|]. split; [|split].
    + intros l j -> Hj. cbn in S2. subst l. discriminate Hj.
    + intros l m -> _ Hj. cbn in S2. subst l. discriminate Hj.
    + intros _ HV Hn. rewrite A, B. field. auto.
Qed.
