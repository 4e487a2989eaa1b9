(** Propeller theorems over the real numbers, part 11: lift and drag of the blade sections
    (C70) and the trials of the induced angle (C53). *)
From Coq Require Import Reals ZArith String Bool Arith Lia Lra List.
From Verif Require Import Base Num RVec Geometry Grid LLModel PropModel Spec_Grid Spec_LL Spec_Prop
     Spec_Blade Spec_Stl Spec_Section Prop_state LL_R LL_thm2 Prop_thm Prop_thm2 Prop_thm3 Prop_thm4 Prop_thm5 Prop_thm6
     Prop_thm7 Prop_thm8 Prop_thm10 Stl_thm6.
Import ListNotations.
Local Open Scope string_scope.
Local Open Scope R_scope.

Definition sec (z : station R) : section :=
  MkSection (z_al0 z) (z_cla z) (z_clmax z) (z_cd0 z) (z_cdl z) (z_cdl2 z).

Lemma delay_law z : delay z = stall_delay (sec z) (z_cb z / z_r z).
Proof. reflexivity. Qed.
Lemma stall_neg_law z : a_stall_neg z = stall_down (sec z).
Proof. unfold a_stall_neg, a_stall, stall_down, stall_up, sec. cbn. rnum. unfold Rdec. change (10 ^ 1)%Z with 10%Z. lra. Qed.
Lemma CDm_val : CDm (T := R) = 129 / 100.
Proof. unfold CDm. rnum. unfold Rdec. change (10 ^ 2)%Z with 100%Z. change (10 ^ 3)%Z with 1000%Z. lra. Qed.
Lemma A2_fixed z : lift_fixed (A2 z) (stall_up (sec z)) (s_max (sec z)).
Proof.
  intros H1 H2. unfold deep_stall_lift, A2. rewrite CDm_val.
  change (a_stall z) with (stall_up (sec z)). rnum. cbn [sec s_max]. field. auto.
Qed.
Lemma A2_neg_fixed z : lift_fixed (A2_neg z) (stall_down (sec z)) (s_slope (sec z) * stall_down (sec z)).
Proof.
  intros H1 H2. unfold deep_stall_lift, A2_neg, clmax_neg. rewrite CDm_val, stall_neg_law.
  rnum. cbn [sec s_slope]. field. auto.
Qed.
Lemma tanh_range x : -1 < tanh x < 1.
Proof.
  unfold tanh, sinh, cosh. pose proof (exp_pos x) as H1. pose proof (exp_pos (- x)) as H2.
  assert (H : 0 < exp x + exp (- x)) by lra.
  replace ((exp x - exp (- x)) / 2 / ((exp x + exp (- x)) / 2)) with ((exp x - exp (- x)) / (exp x + exp (- x)))
    by (field; lra).
  split.
  - apply (Rmult_lt_reg_r (exp x + exp (- x))); [exact H|]. unfold Rdiv. rewrite Rmult_assoc, Rinv_l; lra.
  - apply (Rmult_lt_reg_r (exp x + exp (- x))); [exact H|]. unfold Rdiv. rewrite Rmult_assoc, Rinv_l; lra.
Qed.
Lemma tanh_sign x : (tanh x < 0 <-> x < 0) /\ (tanh x = 0 <-> x = 0).
Proof.
  assert (P : forall y, 0 < y -> 0 < tanh y).
  { intros y Hy. unfold tanh. apply Rdiv_lt_0_compat; [|unfold cosh; pose proof (exp_pos y); pose proof (exp_pos (- y)); lra].
    unfold sinh. assert (exp (- y) < exp y) by (apply exp_increasing; lra). lra. }
  assert (O : forall y, tanh (- y) = - tanh y).
  { intros y. unfold tanh, sinh, cosh. rewrite Ropp_involutive. pose proof (exp_pos y). pose proof (exp_pos (- y)). field. lra. }
  assert (Z : tanh 0 = 0). { unfold tanh, sinh. rewrite Ropp_0. unfold Rdiv. ring. }
  destruct (Rtotal_order x 0) as [H|[->|H]].
  - assert (tanh x < 0) by (pose proof (P (- x) ltac:(lra)) as Q; rewrite O in Q; lra). split; split; intros; lra.
  - rewrite Z. split; split; intros; lra.
  - pose proof (P x H). split; split; intros; lra.
Qed.
Lemma blended_law z x a2 st : section_lift (z_cla z) st a2 x (blended z x a2 st).
Proof.
  unfold section_lift, blended. rnum. change (2 * PI / 180) with (degrees 2). unfold Rltb.
  destruct (Rlt_dec x (degrees 2)) as [H|H].
  - split; [reflexivity|]. intros; lra.
  - split; [intros; lra|]. intros _.
    set (u := (x - st) * 180 / PI).
    pose proof (tanh_range u) as [U1 U2]. destruct (tanh_sign u) as [S1 S2].
    assert (Hu : (u < 0 <-> x < st) /\ (u = 0 <-> x = st)).
    { pose proof PI_RGT_0 as Hp. assert (K : u = (x - st) * (180 / PI)) by (unfold u; field; lra).
      assert (0 < 180 / PI) by (apply Rdiv_lt_0_compat; lra). rewrite K.
      split; split; intros Q.
      - destruct (Rlt_dec x st) as [|L]; [assumption|]. assert (0 <= (x - st) * (180 / PI)) by (apply Rmult_le_pos; lra). lra.
      - apply Rmult_lt_0_compat with (r1 := st - x) (r2 := 180 / PI) in H0; lra.
      - apply Rmult_integral in Q. lra.
      - rewrite Q. ring. }
    exists ((tanh u + 1) / 2). split; [lra|]. split; [rewrite <- (proj1 Hu), <- S1; lra|].
    split; [rewrite <- (proj2 Hu), <- S2; lra|]. split; [reflexivity|].
    unfold deep_stall_lift, A1. rewrite CDm_val, sin_2a. unfold Rdec. change (10 ^ 1)%Z with 10%Z. unfold Rdiv. generalize (/ sin x). intros q. rnum. field.
Qed.

Lemma cl_law z alpha c : (forall x, cl_at z alpha = Some x -> c = x) -> rotating_lift (sec z) (z_cb z / z_r z) alpha c.
Proof.
  intros H. unfold rotating_lift. rewrite <- delay_law. unfold cl_at in H. rnum. unfold Rltb in H.
  split; intros K.
  - destruct (Rlt_dec alpha 0); [lra|]. destruct (Rlt_dec 0 alpha); [|lra].
    exists (A2 z), (blended z (alpha - delay z) (A2 z) (stall_up (sec z))).
    split; [apply A2_fixed|]. split; [apply blended_law|]. exact (H _ eq_refl).
  - destruct (Rlt_dec alpha 0); [|lra].
    exists (A2_neg z), (blended z (- alpha - delay z) (A2_neg z) (stall_down (sec z))).
    split; [apply A2_neg_fixed|]. split; [apply blended_law|]. rewrite (H _ eq_refl), stall_neg_law. cbn [sec s_slope]. ring.
Qed.
Lemma cd_law z alpha cl c : (forall x, cd_at z cl alpha = Some x -> c = x) ->
  rotating_drag (sec z) (z_cb z / z_r z) alpha cl c.
Proof.
  intros H. unfold rotating_drag. rewrite <- delay_law.
  assert (Eu : delay_stall z = delay z + stall_up (sec z)) by (unfold delay_stall, stall_up, a_stall; cbn [sec s_max s_slope]; rnum; ring).
  assert (Ed : delay_stall_neg z = delay z - stall_up (sec z)) by (unfold delay_stall_neg, stall_up, a_stall; cbn [sec s_max s_slope]; rnum; ring).
  rewrite <- Eu, <- Ed. unfold cd_at in H. rnum. unfold Rltb in H.
  assert (Ep : forall y, cd_polar z y = polar (sec z) y) by (intros y; unfold cd_polar, polar; cbn [sec s_cd0 s_cd1 s_cd2]; rnum; ring).
  split; [|split].
  - intros [K1 K2]. destruct (Rlt_dec alpha (delay_stall_neg z)); [lra|]. destruct (Rlt_dec (delay_stall z) alpha); [lra|].
    destruct (Rlt_dec alpha (delay_stall z)); [|lra]. destruct (Rlt_dec (delay_stall_neg z) alpha); [|lra].
    rewrite (H _ eq_refl). apply Ep.
  - intros K1 K2. destruct (Rlt_dec alpha (delay_stall_neg z)); [lra|]. destruct (Rlt_dec (delay_stall z) alpha); [|lra].
    exists (B2 z). split.
    + intros Hc. unfold deep_stall_drag, B2. rewrite CDm_val. rnum. rewrite Ep. cbn [sec s_slope].
      replace (delay_stall z * z_cla z) with (z_cla z * delay_stall z) by ring. field. exact Hc.
    + rewrite (H _ eq_refl), CDm_val. unfold deep_stall_drag. rnum. ring.
  - intros K. destruct (Rlt_dec alpha (delay_stall_neg z)); [|lra].
    exists (B2_neg z). split.
    + intros Hc. unfold deep_stall_drag, B2_neg. rewrite CDm_val. rnum. rewrite sin_neg, cos_neg, Ep. cbn [sec s_slope].
      replace (delay_stall_neg z * z_cla z) with (z_cla z * delay_stall_neg z) by ring. field. exact Hc.
    + rewrite (H _ eq_refl), CDm_val. unfold deep_stall_drag. rnum. rewrite sin_neg, cos_neg. ring.
Qed.

(** *** Rows *)
Lemma nth_filled {T : Type} (mem : nat -> T) l i o : nth_error l i = Some o ->
  exists c, nth_error (filled mem l) i = Some c /\ forall x, o = Some x -> c = x.
Proof.
  intros H. unfold filled, mapi. rewrite nth_error_mapi_from, H. cbn [option_map].
  destruct o as [x|]; eexists; (split; [reflexivity|]); intros y Hy; [now injection Hy|discriminate].
Qed.
Lemma CL_node (mem : nat -> R) ss al i z a : nth_error ss i = Some z -> nth_error al i = Some a ->
  exists c, nth_error (get_CL mem ss al) i = Some c /\ rotating_lift (sec z) (z_cb z / z_r z) a c.
Proof.
  intros H1 H2. unfold get_CL. destruct (nth_filled mem (map2 cl_at ss al) i (cl_at z a)) as (c & A & B).
  { rewrite nth_error_map2, H1, H2. reflexivity. }
  exists c. split; [exact A|]. now apply cl_law.
Qed.
Lemma CD_node (mem : nat -> R) ss cl al i z a c : nth_error ss i = Some z -> nth_error al i = Some a ->
  nth_error cl i = Some c ->
  exists x, nth_error (get_CD mem ss cl al) i = Some x /\ rotating_drag (sec z) (z_cb z / z_r z) a c x.
Proof.
  intros H1 H2 H3. unfold get_CD.
  destruct (nth_filled mem (map2 (fun f a => f a) (map2 cd_at ss cl) al) i (cd_at z c a)) as (x & A & B).
  { rewrite !nth_error_map2, H1, H2, H3. reflexivity. }
  exists x. split; [exact A|]. now apply cd_law.
Qed.

Lemma nth_blade_rows name : forall (ss : list (station R)) einf ei al cl cd vi vx vt i b,
  nth_error (blade_rows name ss einf ei al cl cd vi vx vt) i = Some b ->
  exists z e1 e2 a c1 c2, nth_error ss i = Some z /\ nth_error einf i = Some e1 /\ nth_error ei i = Some e2 /\
    nth_error al i = Some a /\ nth_error cl i = Some c1 /\ nth_error cd i = Some c2 /\
    b_r b = z_r z /\ b_chord b = z_cb z /\ b_pitch b = ndeg (z_beta z) /\ b_advance b = ndeg e1 /\ b_induced b = ndeg e2 /\
    b_alpha b = ndeg a /\ b_cl b = c1 /\ b_cd b = c2.
Proof.
  induction ss as [|z ss IH]; intros [|x1 l1] [|x2 l2] [|x3 l3] [|x4 l4] [|x5 l5] [|x6 l6] [|x7 l7] [|x8 l8] [|i] b;
    cbn [blade_rows nth_error]; intros H; try discriminate.
  - injection H as <-. exists z, x1, x2, x3, x4, x5. repeat split.
  - exact (IH _ _ _ _ _ _ _ _ _ _ H).
Qed.

(** *** Trials of the induced angle *)
Definition trialled (k : nat) (d tip : R) (e : estep R) : Prop :=
  let z := e_st e in
  (exists c0, rotating_lift (sec z) (z_cb z / z_r z) (z_beta z - e_inf e - e_x0 e) c0 /\
     e_y0 e = ei_residual k d tip z (e_inf e) (e_x0 e) c0) /\
  (exists c1, rotating_lift (sec z) (z_cb z / z_r z) (z_beta z - e_inf e - e_x1 e) c1 /\
     e_y1 e = ei_residual k d tip z (e_inf e) (e_x1 e) c1) /\
  (e_x2 e = e_x0 e \/ e_x2 e = e_x1 e).

Lemma ei_function_node mem k d tip (l : list (station R * (R * R))) i z e x : nth_error l i = Some (z, (e, x)) ->
  exists c, rotating_lift (sec z) (z_cb z / z_r z) (z_beta z - e - x) c /\
    nth_error (ei_function mem k d tip l) i = Some (ei_residual k d tip z e x c).
Proof.
  intros H. unfold ei_function.
  destruct (CL_node mem (map fst l) (map (fun q => z_beta (fst q) - fst (snd q) - snd (snd q))%num l) i z (z_beta z - e - x)) as (c & A & B).
  - rewrite nth_error_map, H. reflexivity.
  - rewrite nth_error_map, H. reflexivity.
  - exists c. split; [exact B|]. rewrite nth_error_map2, H, A. reflexivity.
Qed.
Lemma trialled_next mem k d tip (l : list (estep R)) : Forall (trialled k d tip) l ->
  Forall (trialled k d tip)
    (map2 e_next l (ei_function mem k d tip (map (fun e => (e_st e, (e_inf e, e_update e))) l))).
Proof.
  intros H. apply Forall_forall. intros e' Hin. apply In_nth_error in Hin. destruct Hin as (i & Hi).
  rewrite nth_error_map2 in Hi. destruct (nth_error l i) as [e|] eqn:He; [|discriminate].
  destruct (ei_function_node mem k d tip (map (fun e => (e_st e, (e_inf e, e_update e))) l) i (e_st e) (e_inf e) (e_update e)) as (c & A & B).
  { rewrite nth_error_map, He. reflexivity. }
  rewrite B in Hi. injection Hi as <-. rewrite Forall_forall in H. apply nth_error_In in He. destruct (H e He) as (_ & T1 & _).
  unfold trialled. cbn [e_next e_st e_inf e_x0 e_x1 e_x2 e_y0 e_y1]. split; [exact T1|].
  split; [|now right]. exists c. auto.
Qed.
Lemma keys_next (l : list (estep R)) : forall y, List.length y = List.length l ->
  map (fun e => (e_st e, e_inf e)) (map2 e_next l y) = map (fun e => (e_st e, e_inf e)) l.
Proof.
  induction l as [|e l IH]; intros [|b y] Hy; try discriminate; [reflexivity|].
  cbn [map2 map e_next e_st e_inf]. f_equal. apply IH. cbn in Hy. lia.
Qed.
Lemma ei_loop_trialled mem k d tip fuel : forall clk i (l : list (estep R)) x c,
  ei_loop fuel mem clk k d tip i l = Ok (x, c) -> Forall (trialled k d tip) l ->
  exists l', x = map e_update l' /\ map (fun e => (e_st e, e_inf e)) l' = map (fun e => (e_st e, e_inf e)) l /\
    Forall (trialled k d tip) l' /\ (List.length (filter e_moves l') < 3)%nat.
Proof.
  induction fuel as [|fuel IH]; intros clk i l x c H Hl; cbn [ei_loop] in H; [discriminate|].
  destruct (_ || _)%bool eqn:Hb.
  - injection H as <- _. exists l. split; [reflexivity|]. split; [reflexivity|]. split; [exact Hl|].
    apply orb_true_iff in Hb. destruct Hb as [Hb|Hb].
    + apply andb_true_iff in Hb. now apply Nat.ltb_lt.
    + apply Nat.eqb_eq in Hb. lia.
  - apply IH in H; [|now apply trialled_next]. destruct H as (l' & E1 & E2 & E3). exists l'.
    split; [exact E1|]. split; [|exact E3]. rewrite E2. apply keys_next.
    rewrite ei_function_length. apply map_length.
Qed.
Lemma nth_esteps (ss : list (station R)) : forall einf x0 x1 y0 y1 i e,
  nth_error (esteps ss einf x0 x1 y0 y1) i = Some e ->
  nth_error ss i = Some (e_st e) /\ nth_error einf i = Some (e_inf e) /\ nth_error x0 i = Some (e_x0 e) /\
  nth_error x1 i = Some (e_x1 e) /\ nth_error y0 i = Some (e_y0 e) /\ nth_error y1 i = Some (e_y1 e) /\ e_x2 e = e_x0 e.
Proof.
  induction ss as [|s ss IH]; intros [|a l1] [|b l2] [|c l3] [|d l4] [|f l5] [|i] e; cbn [esteps nth_error]; intros H; try discriminate.
  - injection H as <-. repeat split.
  - exact (IH _ _ _ _ _ _ _ H).
Qed.
Lemma nth_combine {A B} (l : list A) (l' : list B) i a b : nth_error l i = Some a -> nth_error l' i = Some b ->
  nth_error (combine l l') i = Some (a, b).
Proof. revert l' i. induction l as [|x l IH]; intros [|y l'] [|i]; cbn; intros; try discriminate; [congruence|auto]. Qed.
Lemma find_ei_trialled fuel mem clk k d tip (ss : list (station R)) einf ei x c :
  List.length einf = List.length ss -> List.length ei = List.length ss ->
  find_ei fuel mem clk k d tip ss einf ei = Ok (x, c) ->
  exists l, x = map e_update l /\ map (fun e => (e_st e, e_inf e)) l = combine ss einf /\
    Forall (trialled k d tip) l /\ (List.length (filter e_moves l) < 3)%nat.
Proof.
  intros H1 H2 H. unfold find_ei in H. apply ei_loop_trialled in H.
  - destruct H as (l & A & B & C). exists l. split; [exact A|]. split; [|exact C]. rewrite B.
    apply esteps_keys; rewrite ?ei_function_length, ?combine_length, ?map_length, ?combine_length; lia.
  - apply Forall_forall. intros e Hin. apply In_nth_error in Hin. destruct Hin as (i & Hi).
    apply nth_esteps in Hi. destruct Hi as (N1 & N2 & N3 & N4 & N5 & N6 & N7).
    unfold trialled.
    destruct (ei_function_node (mem clk) k d tip (combine ss (combine einf ei)) i (e_st e) (e_inf e) (e_x0 e)) as (c0 & A0 & B0).
    { apply nth_combine; [exact N1|]. now apply nth_combine. }
    rewrite B0 in N5.
    match type of N4 with nth_error ?l _ = _ => set (x1 := l) in * end.
    destruct (ei_function_node (mem (S clk)) k d tip (combine ss (combine einf x1)) i (e_st e) (e_inf e) (e_x1 e)) as (c1 & A1 & B1).
    { apply nth_combine; [exact N1|]. now apply nth_combine. }
    rewrite B1 in N6. injection N5 as N5. injection N6 as N6.
    split; [exists c0; auto|]. split; [exists c1; auto|]. now left.
Qed.

Lemma find_coefficients_nodes E g (sa sb : pstate R) : find_coefficients E g sa = (Ok tt, sb) -> sized g sa ->
  exists m1 m2 sl l,
    p_CL sb = get_CL m1 (pg_stations g) (p_alpha sb) /\
    p_CD sb = get_CD m2 (pg_stations g) (p_CL sb) (p_alpha sb) /\
    last_of (pg_stations g) = Some sl /\
    p_ei sb = map e_update l /\ map (fun e => (e_st e, e_inf e)) l = combine (pg_stations g) (p_einf sb) /\
    Forall (trialled (pg_k g) (pg_d g) (z_beta sl)) l /\ (List.length (filter e_moves l) < 3)%nat.
Proof.
  unfold sized. intros H Hs. unfold find_coefficients in H.
  destruct (last_of (pg_stations g)) as [sl|] eqn:Hl; [|discriminate].
  destruct (find_ei _ _ _ _ _ _ _ _ _) as [[ei clk]|e] eqn:K; [|discriminate].
  apply pair_equal_spec in H. destruct H as [_ H]. subst sb.
  cbn [p_ei p_einf p_alpha p_CL p_CD set_coeffs].
  set (einf := advance_angles (p_J sa) (pg_stations g)) in *.
  assert (He : List.length einf = List.length (pg_stations g)) by (unfold einf, advance_angles; apply map_length).
  pose proof (first_guess_length _ _ _ He Hs) as Hf.
  destruct (find_ei_trialled _ _ _ _ _ _ _ _ _ _ _ He Hf K) as (l & A & B & C & D).
  eexists _, _, sl, l. split; [reflexivity|]. split; [reflexivity|]. split; [reflexivity|].
  split; [exact A|]. split; [exact B|]. split; [exact C|exact D].
Qed.

Lemma f2_nth {A B} (P : A -> B -> Prop) : forall l l', List.length l = List.length l' ->
  (forall i a b, nth_error l i = Some a -> nth_error l' i = Some b -> P a b) -> Forall2 P l l'.
Proof.
  induction l as [|x l IH]; intros [|y l'] HL H; try discriminate; constructor.
  - exact (H 0%nat x y eq_refl eq_refl).
  - apply IH; [now injection HL|]. intros i a b Ha Hb. exact (H (S i) a b Ha Hb).
Qed.
Lemma rows_nodes E cg aero ps u wp p (g : pgeom R) s q s' : make_pgeom E u wp p = Ok g -> 0 < pr_diameter p ->
  run_prop E cg aero ps g s = (Ok q, s') -> sized g s ->
  exists placed sl l, placed_on p (map (@z_zeta R) (pg_stations g)) placed /\
    Forall (fun b => obeys_section (section_at placed (2 * b_r b / pr_diameter p)) b) (prop_rows g s') /\
    List.length (prop_rows g s') = List.length (pg_stations g) /\
    last_of (pg_stations g) = Some sl /\ (List.length (filter e_moves l) < 3)%nat /\
    map (@e_st R) l = pg_stations g /\
    Forall2 (fun b e => let z := e_st e in section_at placed (2 * b_r b / pr_diameter p) = sec z /\
       b_r b = z_r z /\ b_chord b = z_cb z /\ z_zeta z = 2 * z_r z / pr_diameter p /\
       degrees (b_pitch b) = z_beta z /\ degrees (b_advance b) = e_inf e /\ degrees (b_induced b) = e_update e /\
       trialled (pr_blades p) (pr_diameter p) (z_beta sl) e) (prop_rows g s') l.
Proof.
  intros Hg Hd H Hs. destruct (blade_sections _ _ _ _ _ Hg) as (placed & P1 & P2).
  destruct (make_pgeom_stations _ _ _ _ _ Hg) as [Hst _]. rewrite Forall_forall in Hst.
  destruct (make_pgeom_data _ _ _ _ _ Hg) as (_ & _ & Ed & _ & _ & Ek & _).
  destruct (run_prop_last _ _ _ _ _ _ _ _ H Hs) as (sa & sb & A1 & A2 & A3 & _ & _).
  destruct (find_coefficients_lists _ _ _ _ A1 A2) as (cla & _ & L1 & L2 & L3 & L4 & L5 & _).
  destruct (find_coefficients_nodes _ _ _ _ A1 A2) as (m1 & m2 & sl & l & N1 & N2 & N3 & N4 & N5 & N6 & N7).
  unfold blades in A3.
  assert (B : p_ei s' = p_ei sb /\ p_einf s' = p_einf sb /\ p_alpha s' = p_alpha sb /\ p_CL s' = p_CL sb /\
              p_CD s' = p_CD sb) by (repeat split; congruence).
  destruct B as (B1 & B2 & B3 & B4 & B5).
  rewrite <- B1 in *. rewrite <- B2 in *. rewrite <- B3 in *. rewrite <- B4 in *. rewrite <- B5 in *.
  destruct (solved_rows _ _ _ _ _ _ _ _ H Hs) as (R1 & _).
  assert (Lr : List.length (prop_rows g s') = List.length (pg_stations g)).
  { rewrite <- (map_length (fun b => b_r b)), R1. apply map_length. }
  exists placed, sl, l.
  assert (Sec : forall z, In z (pg_stations g) -> section_at placed (2 * z_r z / pr_diameter p) = sec z /\ z_zeta z = 2 * z_r z / pr_diameter p).
  { intros z Hz. assert (Ez : z_zeta z = 2 * z_r z / pr_diameter p) by (rewrite (Hst z Hz), Ed; field; lra).
    split; [|exact Ez]. rewrite <- Ez. destruct (P2 z Hz) as (Q1 & Q2 & Q3 & Q4 & Q5 & Q6).
    unfold section_at, sec. cbv zeta. rewrite Q1, Q2, Q3, Q4, Q5, Q6. reflexivity. }
  split; [exact P1|]. split; [|split; [exact Lr|split; [exact N3|split; [exact N7|split]]]].
  - apply Forall_forall. intros b Hb. apply In_nth_error in Hb. destruct Hb as (i & Hi).
    unfold prop_rows in Hi. cbn [find_Vi p_ei p_einf p_alpha p_CL p_CD] in Hi.
    apply nth_blade_rows in Hi.
    destruct Hi as (z & e1 & e2 & a & c1 & c2 & Z1 & Z2 & Z3 & Z4 & Z5 & Z6 & F1 & F2 & F3 & F4 & F5 & F6 & F7 & F8).
    destruct (Sec z (nth_error_In _ _ Z1)) as [Sz _].
    unfold obeys_section. rewrite F1, F2, F6, F7, F8, deg_rad, Sz.
    destruct (CL_node m1 _ _ i z a Z1 Z4) as (c & C1 & C2). rewrite <- N1 in C1.
    assert (Ec : c = c1) by congruence. subst c.
    destruct (CD_node m2 _ _ _ i z a c1 Z1 Z4 Z5) as (x & D1 & D2). rewrite <- N2 in D1.
    assert (Ex : x = c2) by congruence. subst x. auto.
  - replace (map (@e_st R) l) with (map fst (map (fun e => (e_st e, e_inf e)) l)) by (rewrite map_map; reflexivity).
    rewrite N5. apply map_fst_combine. lia.
  - assert (Ll : List.length (prop_rows g s') = List.length l).
    { rewrite Lr, <- (map_length (fun e => (e_st e, e_inf e))), N5, combine_length. lia. }
    apply f2_nth; [exact Ll|]. intros i b e Hi He.
    unfold prop_rows in Hi. cbn [find_Vi p_ei p_einf p_alpha p_CL p_CD] in Hi.
    apply nth_blade_rows in Hi.
    destruct Hi as (z & e1 & e2 & a & c1 & c2 & Z1 & Z2 & Z3 & Z4 & Z5 & Z6 & F1 & F2 & F3 & F4 & F5 & F6 & F7 & F8).
    assert (Hk : (e_st e, e_inf e) = (z, e1)).
    { pose proof (nth_combine _ _ _ _ _ Z1 Z2) as K. rewrite <- N5, nth_error_map, He in K. cbn [option_map] in K. congruence. }
    injection Hk as K1 K2. rewrite K1, K2.
    destruct (Sec z (nth_error_In _ _ Z1)) as [Sz Ez].
    rewrite F1, F2, F3, F4, F5, !deg_rad. split; [exact Sz|]. split; [reflexivity|]. split; [reflexivity|].
    split; [exact Ez|]. split; [reflexivity|]. split; [reflexivity|]. split.
    + rewrite N4, nth_error_map, He in Z3. cbn [option_map] in Z3. congruence.
    + rewrite Forall_forall in N6. rewrite <- Ek, <- Ed. apply N6. exact (nth_error_In _ _ He).
Qed.

(** *** C70 *)
Lemma C70_lemma E cg aero ps u wp p (g : pgeom R) s q s' : make_pgeom E u wp p = Ok g -> 0 < pr_diameter p ->
  run_prop E cg aero ps g s = (Ok q, s') -> sized g s ->
  exists placed, placed_on p (map (@z_zeta R) (pg_stations g)) placed /\
    Forall (fun b => obeys_section (section_at placed (2 * b_r b / pr_diameter p)) b) (prop_rows g s').
Proof.
  intros Hg Hd H Hs. destruct (rows_nodes _ _ _ _ _ _ _ _ _ _ _ Hg Hd H Hs) as (placed & sl & l & P1 & P2 & _).
  exists placed. auto.
Qed.

(** *** C53: trials *)
Lemma residual_law k d tip (z : station R) e x c : z_zeta z = 2 * z_r z / d -> 0 < d -> z_r z <> 0 ->
  ei_residual k d tip z e x c = vortex_imbalance k d tip (z_r z) (z_cb z) e x c.
Proof.
  intros Hz Hd Hr. unfold ei_residual, vortex_imbalance, ei_a, ei_b, chatb, tip_factor. rnum.
  rewrite <- INR_IZR_INZ, Hz. f_equal. f_equal. field. lra.
Qed.
Lemma update_law (e : estep R) : corrected (z_beta (e_st e) - e_inf e)
  (if e_moves e then e_x1 e - e_y1 e * (e_x1 e - e_x0 e) / (e_y1 e - e_y0 e) else e_x2 e) (e_update e).
Proof.
  unfold e_update, corrected, correct_ei. rewrite !nsign_sign. rnum.
  set (x := if e_moves e then _ else _). unfold Rltb.
  destruct (Rlt_dec (Rabs x) 1).
  - destruct (Reqb _ _); [now left|right; ring].
  - destruct (Reqb _ _); [left|right]; unfold Rdec; change (10 ^ 1)%Z with 10%Z; lra.
Qed.
Lemma moves_law (e : estep R) : e_moves e = true <-> 1 / 10 ^ 11 < Rabs (e_y1 e - e_y0 e).
Proof.
  unfold e_moves, ngtb, ei_error. rnum. rewrite Rltb_true. unfold Rdec. rewrite pow_IZR. reflexivity.
Qed.
Lemma last_of_snoc {A} (l : list A) x : last_of (l ++ [x])%list = Some x.
Proof.
  unfold last_of. rewrite app_length, Nat.add_1_r. cbn [pred]. rewrite nth_error_app2 by lia.
  now rewrite Nat.sub_diag.
Qed.
Lemma C53_trials_lemma E cg aero ps u wp p (g : pgeom R) s q s' bl rest : make_pgeom E u wp p = Ok g -> 0 < pr_diameter p ->
  run_prop E cg aero ps g s = (Ok q, s') -> sized g s -> Forall (fun b => b_r b <> 0) (prop_rows g s') ->
  prop_rows g s' = (rest ++ [bl])%list ->
  exists placed settled, placed_on p (map (@z_zeta R) (pg_stations g)) placed /\ (unsettled settled <= 2)%nat /\
    Forall2 (fun b => last_trials (pr_blades p) (pr_diameter p) (degrees (b_pitch bl))
                        (section_at placed (2 * b_r b / pr_diameter p)) b) (prop_rows g s') settled.
Proof.
  intros Hg Hd H Hs Hr El.
  destruct (rows_nodes _ _ _ _ _ _ _ _ _ _ _ Hg Hd H Hs) as (placed & sl & l & P1 & P2 & P3 & P4 & P5 & P5' & P6).
  exists placed, (map (fun e => negb (e_moves e)) l). split; [exact P1|]. split.
  { unfold unsettled. clear -P5. assert (K : forall l, List.length (filter negb (map (fun e => negb (e_moves e)) l)) = List.length (filter (@e_moves R _) l)).
    { induction l0 as [|e l0 IH]; cbn [map filter]; [reflexivity|]. rewrite negb_involutive. destruct (e_moves e); cbn [List.length]; lia. }
    rewrite K. lia. }
  assert (Ht : degrees (b_pitch bl) = z_beta sl).
  { assert (Hp : map (fun b => degrees (b_pitch b)) (prop_rows g s') = map (@z_beta R) (pg_stations g)).
    { rewrite <- P5', map_map. clear -P6. induction P6 as [|b e l l' Hb _ IH]; [reflexivity|]. cbn. rewrite IH. f_equal.
      now destruct Hb as (_ & _ & _ & _ & Hb & _). }
    rewrite El, map_app in Hp. apply (f_equal (@last_of R)) in Hp. cbn [map] in Hp.
    rewrite last_of_snoc, last_of_map, P4 in Hp. now injection Hp. }
  rewrite Ht. clear El Ht P2 P3 P4 P5 P5'.
  induction P6 as [|b e rows l Hb _ IH]; [constructor|]. inversion Hr as [|? ? Hr1 Hr2]. constructor; [|now apply IH].
  clear IH. cbv zeta in Hb. destruct Hb as (S1 & S2 & S3 & S4 & S5 & S6 & S7 & S8).
  unfold last_trials. cbv zeta. rewrite S1, S2, S3, S5, S6, S7.
  destruct S8 as ((c0 & Q0 & Y0) & (c1 & Q1 & Y1) & Q2).
  rewrite S2 in Hr1.
  rewrite (residual_law _ _ _ _ _ _ _ S4 Hd Hr1) in Y0. rewrite (residual_law _ _ _ _ _ _ _ S4 Hd Hr1) in Y1.
  exists (e_x0 e), c0, (e_x1 e), c1, (if e_moves e then e_x1 e - e_y1 e * (e_x1 e - e_x0 e) / (e_y1 e - e_y0 e) else e_x2 e).
  split; [exact Q0|]. split; [exact Q1|]. split; [apply update_law|].
  rewrite <- Y0, <- Y1. pose proof (moves_law e) as M. destruct (e_moves e); cbn [negb].
  - split; [now apply M|]. assert (Hn : e_y1 e - e_y0 e <> 0).
    { intros K. pose proof (proj1 M eq_refl) as K'. rewrite K, Rabs_R0 in K'. assert (0 < 1 / 10 ^ 11) by (apply Rdiv_lt_0_compat; [lra|apply pow_lt; lra]). lra. }
    field. exact Hn.
  - split; [|exact Q2]. apply Rnot_lt_le. intros K. apply M in K. discriminate.
Qed.
