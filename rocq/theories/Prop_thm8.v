(** Propeller theorems over the real numbers, part 8: blade-element loads and velocity
    triangles in terms of the rows of the distributions. *)
From Coq Require Import Reals ZArith String Bool Arith Lia Lra List.
From Verif Require Import Base Num RVec Geometry Grid LLModel PropModel Spec_Grid Spec_LL Spec_Prop
     Spec_Blade Prop_state LL_R LL_thm2 Prop_thm Prop_thm2 Prop_thm3 Prop_thm4 Prop_thm5 Prop_thm6 Prop_thm7.
Import ListNotations.
Local Open Scope string_scope.

(** *** What a returning run leaves: the lists of the last blade-element solve *)
Section Last.
  Context {T : Type} {N : num_ops T}.
  Lemma set_op_blades n J a b (s : pstate T) : blades (set_op n J a b s) = blades s.
  Proof. reflexivity. Qed.
  Lemma set_forces_blades q (s : pstate T) : blades (set_forces q s) = blades s.
  Proof. destruct q as [[[? ?] ?] ?]. reflexivity. Qed.
  Lemma find_Vi_blades ss (s : pstate T) : blades (find_Vi (N := N) ss s) = blades s.
  Proof. reflexivity. Qed.
  Lemma set_aero_sized g aero s s1 : p_set_aero (N := N) aero s = (Ok tt, s1) -> sized g s -> sized g s1.
  Proof.
    unfold p_set_aero. destruct (opt_truthy aero_truthy aero) as [a|].
    - destruct (dget (an a) "V_mag"), (dget (an a) "rho"); try discriminate.
      unfold smod. intros H. inversion H. auto.
    - unfold smod. intros H. inversion H. auto.
  Qed.
  Lemma state_from_power_keeps E g s s' : state_from_power (N := N) E g s = (Ok tt, s') ->
    p_power s' = p_power s /\ p_throttle s' = p_throttle s.
  Proof.
    unfold state_from_power. intros H. unfold sbind at 1 in H. unfold sget at 1 in H.
    unfold sbind in H.
    match type of H with (match ?m s with _ => _ end = _) => set (mm := m) in H end.
    assert (Hk : keeps_flow mm).
    { subst mm. destruct (p_throttle s) as [th|].
      - destruct (pg_motor g) as [m|].
        + apply check_keeps, find_rate_keeps. intros n. apply zero_torque_keeps.
        + intros a b c K. inversion K; reflexivity.
      - destruct (p_power s) as [pw|].
        + apply check_keeps, find_rate_keeps. intros n. apply zero_power_keeps.
        + intros a b c K. inversion K; reflexivity. }
    destruct (mm s) as [[n|e] s1] eqn:K; [|discriminate].
    apply Hk in K. unfold smod in H. inversion H; subst s'. cbn [set_op p_power p_throttle].
    split; congruence.
  Qed.
  Lemma run_prop_last E cg aero ps g s q s' : run_prop (N := N) E cg aero ps g s = (Ok q, s') -> sized g s ->
    exists sa sb, find_coefficients E g sa = (Ok tt, sb) /\ sized g sa /\ blades s' = blades sb /\
      flow_of s' = flow_of sb /\
      (p_power s' = None -> p_throttle s' = None -> core s' = core sb).
  Proof.
    intros H Hs. apply run_prop_steps in H. destruct H as (s1 & s2 & s3 & K1 & K2 & K3 & _ & ->).
    pose proof (set_aero_sized g _ _ _ K1 Hs) as H1.
    pose proof (keeps_set_prop _ _ _ _ _ _ K2 H1) as H2.
    assert (G : exists sa sb, find_coefficients E g sa = (Ok tt, sb) /\ sized g sa /\ blades s3 = blades sb /\
      flow_of s3 = flow_of sb /\
      (p_power s3 = None -> p_throttle s3 = None -> core s3 = core sb)).
    { destruct (p_power s2) as [pw|] eqn:P2, (p_throttle s2) as [th|] eqn:T2.
      4:{ exists s2, s3. auto 6. }
      all: pose proof (state_from_power_keeps _ _ _ _ K3) as [Kp Kt].
      all: assert (Kn : p_power s3 = None -> p_throttle s3 = None -> False) by congruence.
      all: apply state_from_power_solved in K3; [|exact H2].
      all: destruct K3 as (x & sb & _ & (sa & F & S & _) & Es); exists sa, sb; split; [exact F|]; split; [exact S|]; rewrite Es at 1 2.
      all: split; [reflexivity|]; split; [reflexivity|]; intros Z1 Z2; destruct (Kn Z1 Z2). }
    destruct G as (sa & sb & A1 & A2 & A3 & A4 & A5). exists sa, sb.
    split; [exact A1|]. split; [exact A2|]. split; [|split].
    - rewrite set_forces_blades, find_Vi_blades. exact A3.
    - destruct q as [[[? ?] ?] ?]. exact A4.
    - destruct q as [[[? ?] ?] ?]. exact A5.
  Qed.
End Last.

Local Open Scope R_scope.

Lemma deg_rad x : degrees (ndeg (x : R)) = x.
Proof. unfold degrees. rnum. field. apply PI_neq0. Qed.

(** *** Loads (C66) *)
Lemma thrust_rows name k d rho n : d <> 0 -> forall (ss : list (station R)) einf ei al cl cla cd vi vx vt,
  Forall (fun z => z_r z = z_zeta z * d / 2) ss ->
  List.length einf = List.length ss -> List.length ei = List.length ss -> List.length al = List.length ss ->
  List.length cl = List.length ss -> List.length cla = List.length ss -> List.length cd = List.length ss ->
  List.length vi = List.length ss -> List.length vx = List.length ss -> List.length vt = List.length ss ->
  let rows := blade_rows name ss einf ei al cl cd vi vx vt in
  let int := integrand_rows k d ss einf ei cl cla cd in
  List.length int = List.length ss /\
  map (@b_r R) rows = map (Rmult (d / 2)) (map (@z_zeta R) ss) /\
  map (thrust_of rho n k) rows = map (Rmult (rho * n ^ 2 * d ^ 3 * PI ^ 2 / 2)) (map (fun q => fst (fst (fst q))) int) /\
  map (torque_of rho n k) rows = map (Rmult (rho * n ^ 2 * d ^ 4 * PI ^ 2 / 4)) (map (fun q => snd (fst (fst q))) int).
Proof.
  intros Hd. induction ss as [|s ss IH]; intros [|a einf] [|b ei] [|c al] [|e cl] [|f cla] [|g cd] [|h vi] [|i vx] [|j vt] Hz;
  cbn [List.length]; intros; try discriminate; cbv zeta; [repeat split|].
  apply Forall_cons_iff in Hz. destruct Hz as [Hz Hzs].
  destruct (IH einf ei al cl cla cd vi vx vt) as (I1 & I2 & I3 & I4); try lia; auto.
  cbn [blade_rows integrand_rows map List.length fst snd]. cbv zeta in *.
  split; [now rewrite I1|]. rewrite I2, I3, I4.
  assert (Hi : forall x y u, wind n (MkBlade name (z_r s) (z_cb s) (ndeg (z_beta s)) (ndeg a) (ndeg b) (ndeg c) e g x y u)
     = 2 * PI * n * z_r s * cos b / cos a).
  { intros x y u. unfold wind. cbn [b_r b_induced b_advance]. now rewrite !deg_rad. }
  split; [|split].
  - cbn [b_r]. rewrite Hz. f_equal. field.
  - f_equal. unfold thrust_of, lift_of, drag_of, inflow. cbn [b_chord b_cl b_cd b_advance b_induced].
    rewrite Hi, !deg_rad, Hz. unfold integrands, chatb. cbn [fst snd]. rnum. rewrite <- INR_IZR_INZ.
    unfold Rdiv. rewrite !Rinv_mult. generalize (/ cos a). intros ia. field. exact Hd.
  - f_equal. unfold torque_of, lift_of, drag_of, inflow. cbn [b_r b_chord b_cl b_cd b_advance b_induced].
    rewrite Hi, !deg_rad, Hz. unfold integrands, chatb. cbn [fst snd]. rnum. rewrite <- INR_IZR_INZ.
    unfold Rdiv. rewrite !Rinv_mult. generalize (/ cos a). intros ia. field. exact Hd.
Qed.

(** lengths and coefficients after a blade-element solve *)
Lemma get_CL_length (mem : nat -> R) ss al : List.length al = List.length ss ->
  List.length (get_CL mem ss al) = List.length ss.
Proof. intros H. unfold get_CL. rewrite filled_length, map2_min. lia. Qed.
Lemma get_CD_length (mem : nat -> R) ss cl al : List.length al = List.length ss -> List.length cl = List.length ss ->
  List.length (get_CD mem ss cl al) = List.length ss.
Proof. intros H1 H2. unfold get_CD. rewrite filled_length, !map2_min. lia. Qed.
Lemma find_coefficients_lists E g (sa sb : pstate R) : find_coefficients E g sa = (Ok tt, sb) -> sized g sa ->
  let ss := pg_stations g in
  exists cla,
    p_einf sb = map (fun z => Ratan2 (p_J sa) (PI * z_zeta z)) ss /\
    List.length (p_einf sb) = List.length ss /\ List.length (p_ei sb) = List.length ss /\
    List.length (p_alpha sb) = List.length ss /\ List.length (p_CL sb) = List.length ss /\
    List.length (p_CD sb) = List.length ss /\ List.length cla = List.length ss /\
    p_alpha sb = map2 (fun q x => z_beta (fst q) - snd q - x) (combine ss (p_einf sb)) (p_ei sb) /\
    let rows := integrand_rows (pg_k g) (pg_d g) ss (p_einf sb) (p_ei sb) (p_CL sb) cla (p_CD sb) in
    let zs := map (@z_zeta R) ss in
    p_CT sb = PI ^ 2 / 4 * pe_simps E (map (fun q => fst (fst (fst q))) rows) zs /\
    p_Cl sb = PI ^ 2 / 8 * pe_simps E (map (fun q => snd (fst (fst q))) rows) zs /\
    p_CP sb = 2 * PI * p_Cl sb /\
    (0 < p_CT sb -> p_eff sb = p_CT sb * p_J sa / p_CP sb) /\ (p_CT sb <= 0 -> p_eff sb = 0).
Proof.
  unfold sized. intros H Hs. cbv zeta.
  pose proof (find_coefficients_sized _ _ _ _ _ H Hs) as Hb. unfold sized in Hb.
  unfold find_coefficients in H.
  destruct (last_of (pg_stations g)) as [sl|]; [|discriminate].
  destruct (find_ei _ _ _ _ _ _ _ _ _) as [[ei clk]|e] eqn:K; [|discriminate].
  apply pair_equal_spec in H. destruct H as [_ H]. subst sb.
  cbn [p_ei p_einf p_alpha p_CL p_CD p_CT p_Cl p_CP p_eff set_coeffs] in *.
  set (einf := advance_angles (p_J sa) (pg_stations g)) in *.
  assert (He : List.length einf = List.length (pg_stations g)) by (unfold einf, advance_angles; apply map_length).
  set (al := map2 _ _ ei).
  assert (Ha : List.length al = List.length (pg_stations g)).
  { unfold al. rewrite map2_min, combine_length. lia. }
  set (cl := get_CL _ _ al) in *.
  assert (Hcl : List.length cl = List.length (pg_stations g)) by now apply get_CL_length.
  set (cd := get_CD _ _ cl al).
  assert (Hcd : List.length cd = List.length (pg_stations g)) by now apply get_CD_length.
  set (clf := get_CL _ _ (map _ al)). set (clb := get_CL _ _ (map _ al)).
  assert (Hf : List.length clf = List.length (pg_stations g)) by (apply get_CL_length; now rewrite map_length).
  assert (Hk : List.length clb = List.length (pg_stations g)) by (apply get_CL_length; now rewrite map_length).
  set (cla := map2 _ clf clb).
  exists cla. split; [reflexivity|]. split; [exact He|]. split; [exact Hb|]. split; [exact Ha|].
  split; [exact Hcl|]. split; [exact Hcd|]. split; [unfold cla; rewrite map2_min; lia|].
  split; [reflexivity|]. rnum.
  set (S1 := pe_simps E (map (fun q => fst (fst (fst q))) _) _).
  set (S2 := pe_simps E (map (fun q => snd (fst (fst q))) _) _).
  replace (PI ^ 2) with (PI * PI) by ring.
  split; [reflexivity|]. split; [reflexivity|]. split; [lra|]. split.
  - intros HC. replace (Rleb (PI * PI / 4 * S1) 0) with false by (symmetry; now apply Rleb_false). reflexivity.
  - intros HC. replace (Rleb (PI * PI / 4 * S1) 0) with true by (symmetry; now apply Rleb_true). reflexivity.
Qed.

Lemma make_pgeom_stations E u wp (p : prop R) g : make_pgeom E u wp p = Ok g ->
  Forall (fun z => z_r z = z_zeta z * pg_d g / 2) (pg_stations g) /\
  map (@z_zeta R) (pg_stations g) =
    map (linspace (pr_hub p / pr_diameter p) (ndec 999 3) (pr_nodes p)) (seq 0 (pr_nodes p)).
Proof.
  unfold make_pgeom, rbind. unfold zetas. destruct (pr_diameter p =? n0)%num; [discriminate|].
  set (zs := map _ (seq 0 (pr_nodes p))).
  destruct (coefficients p zs) as [c|]; [|discriminate].
  destruct (pitch E p) as [b|]; [|discriminate].
  destruct (chord E p zs) as [cb|]; [|discriminate].
  destruct (make_motor p) as [m|]; [|discriminate].
  intros H. apply (f_equal (fun o => match o with Ok y => y | Err _ => g end)) in H. subst g.
  cbn [pg_stations pg_d]. split.
  - apply Forall_forall. intros z Hz. apply in_map_iff in Hz. destruct Hz as (x & <- & _).
    cbn [z_r z_zeta make_station]. unfold radius. rewrite half. rnum. lra.
  - rewrite map_map. cbn [z_zeta make_station]. apply map_id.
Qed.
Lemma zeta_pos E u wp (p : prop R) g : make_pgeom E u wp p = Ok g -> 0 < pr_diameter p -> 0 < pr_hub p ->
  Forall (fun z => 0 < z_zeta z) (pg_stations g).
Proof.
  intros H Hd Hh. destruct (make_pgeom_stations _ _ _ _ _ H) as [_ E2].
  apply Forall_forall. intros z Hz.
  assert (Hi : In (z_zeta z) (map (@z_zeta R) (pg_stations g))) by now apply in_map.
  rewrite E2 in Hi. apply in_map_iff in Hi. destruct Hi as (i & <- & Hi). apply in_seq in Hi.
  assert (P0 : 0 < pr_hub p / pr_diameter p) by now apply Rdiv_lt_0_compat.
  unfold linspace. destruct (Nat.leb (pr_nodes p) 1) eqn:L1; [exact P0|].
  apply Nat.leb_gt in L1.
  destruct (Nat.eqb (S i) (pr_nodes p)) eqn:L2.
  { rnum. unfold Rdec. simpl. lra. }
  rnum. rewrite <- !INR_IZR_INZ.
  assert (E9 : Rdec 999 3 = 999 / 1000) by (unfold Rdec; simpl; lra). rewrite E9.
  set (a := pr_hub p / pr_diameter p) in *.
  assert (Hn : 0 < INR (pred (pr_nodes p))) by (apply lt_0_INR; lia).
  assert (Hi1 : 0 <= INR i <= INR (pred (pr_nodes p))) by (split; [apply pos_INR|apply le_INR; lia]).
  replace (INR i * ((999 / 1000 - a) / INR (pred (pr_nodes p))) + a)
    with ((INR i * (999 / 1000) + (INR (pred (pr_nodes p)) - INR i) * a) / INR (pred (pr_nodes p))) by (field; lra).
  apply Rdiv_lt_0_compat; [|exact Hn].
  assert (H1 : 0 <= (INR (pred (pr_nodes p)) - INR i) * a) by (apply Rmult_le_pos; lra).
  destruct (Req_dec (INR i) 0) as [->|]; [|lra].
  rewrite Rminus_0_r. pose proof (Rmult_lt_0_compat _ _ Hn P0). lra.
Qed.

Lemma C66_lemma E u wp (p : prop R) g cg aero ps s F M Th l s' :
  make_pgeom E u wp p = Ok g -> 0 < pr_diameter p -> quadrature (pe_simps E) ->
  run_prop E cg aero ps g s = (Ok (F, M, Th, l), s') -> sized g s ->
  let rows := prop_rows g s' in let rho := p_rho s' in let n := p_n s' in let k := pr_blades p in
  Th = pe_simps E (map (thrust_of rho n k) rows) (map (@b_r R) rows) /\
  l = - rot_dir (pr_rot_dir p) * pe_simps E (map (torque_of rho n k) rows) (map (@b_r R) rows) /\
  List.length rows = pr_nodes p.
Proof.
  intros Hg Hd Hq H Hs. cbv zeta.
  destruct (make_pgeom_data _ _ _ _ _ Hg) as (_ & _ & Ed & Er & _ & Ek & _).
  destruct (make_pgeom_stations _ _ _ _ _ Hg) as [Hst Hz].
  destruct (run_prop_last _ _ _ _ _ _ _ _ H Hs) as (sa & sb & A1 & A2 & A3 & _ & _).
  apply run_prop_steps in H. destruct H as (s1 & s2 & s3 & _ & _ & _ & K & Es).
  set (s4 := find_Vi (pg_stations g) s3) in *.
  pose proof (set_forces_fields (F, M, Th, l) s4) as Q. rewrite <- Es in Q.
  destruct Q as (_ & Q2 & Q3 & Q4 & Q5 & _ & _ & _).
  assert (ETh : Th = p_rho s' * p_n s' ^ 2 * pg_d g ^ 4 * p_CT s' /\
                l = - pg_rot g * (p_rho s' * p_n s' ^ 2 * pg_d g ^ 5 * p_Cl s')).
  { rewrite Q2, Q3, Q4, Q5. unfold resolve in K. clear -K. rewrite fourth_pow, fifth_pow in K.
    unfold rbind in K. destruct (vec_angle _ _) as [x|]; [|discriminate].
    destruct (x =? n0)%num;
    apply (f_equal (fun o => match o with Ok y => (snd (fst y), snd y) | Err _ => (Th, l) end)) in K;
    cbv iota beta in K; cbn [fst snd] in K; apply pair_equal_spec in K; destruct K as [<- <-];
    rnum; split; ring. }
  destruct ETh as [-> ->].
  destruct (find_coefficients_lists _ _ _ _ A1 A2) as (cla & _ & L1 & L2 & L3 & L4 & L5 & L6 & _ & C1 & C2 & _).
  unfold blades in A3.
  assert (B : p_ei s' = p_ei sb /\ p_einf s' = p_einf sb /\ p_alpha s' = p_alpha sb /\ p_CL s' = p_CL sb /\
              p_CD s' = p_CD sb /\ p_CT s' = p_CT sb /\ p_Cl s' = p_Cl sb) by (repeat split; congruence).
  destruct B as (B1 & B2 & B3 & B4 & B5 & B6 & B7).
  rewrite <- B1 in *. rewrite <- B2 in *. rewrite <- B3 in *. rewrite <- B4 in *. rewrite <- B5 in *.
  rewrite B6, B7, C1, C2.
  unfold prop_rows. cbn [find_Vi p_ei p_einf p_alpha p_CL p_CD p_Vi p_Vxi p_Vti].
  set (vi := map2 _ _ (p_ei s')).
  assert (V1 : List.length vi = List.length (pg_stations g)) by (unfold vi; rewrite map2_min, combine_length; lia).
  set (vx := map2 _ vi _). set (vt := map2 _ vi _).
  assert (V2 : List.length vx = List.length (pg_stations g)) by (unfold vx; rewrite !map2_min; lia).
  assert (V3 : List.length vt = List.length (pg_stations g)) by (unfold vt; rewrite !map2_min; lia).
  rewrite Ed, Ek, Er in *.
  destruct (thrust_rows (pg_name g) (pr_blades p) (pr_diameter p) (p_rho s') (p_n s')) with
    (ss := pg_stations g) (einf := p_einf s') (ei := p_ei s') (al := p_alpha s') (cl := p_CL s') (cla := cla)
    (cd := p_CD s') (vi := vi) (vx := vx) (vt := vt) as (R0 & R1 & R2 & R3); auto; [lra|].
  rewrite R1, R2, R3. clearbody vi vx vt.
  set (rows := blade_rows _ _ _ _ _ _ _ _ _ _) in *.
  rewrite !Hq by (lra || rewrite !map_length; exact R0).
  split; [field|]. split; [field|].
  apply (f_equal (@List.length _)) in R1. rewrite !map_length in R1. rewrite R1.
  apply (f_equal (@List.length _)) in Hz. rewrite !map_length, seq_length in Hz. exact Hz.
Qed.

(** *** Velocities (C67) *)
Lemma triangle_identities a b : sin a + sin b * cos (a + b) = cos b * sin (a + b) /\
  cos a - sin b * sin (a + b) = cos b * cos (a + b).
Proof.
  pose proof (sin2_cos2 b) as S. unfold Rsqr in S. rewrite sin_plus, cos_plus. split.
  - transitivity (sin a * (sin b * sin b + cos b * cos b) + sin b * (cos a * cos b - sin a * sin b)); [rewrite S; ring|ring].
  - transitivity (cos a * (sin b * sin b + cos b * cos b) - sin b * (sin a * cos b + cos a * sin b)); [rewrite S; ring|ring].
Qed.
Lemma row_triangle name n V d z ei al cl cd : d <> 0 -> n <> 0 -> 0 < z_zeta z -> z_r z = z_zeta z * d / 2 ->
  let einf := Ratan2 (V / (n * d)) (PI * z_zeta z) in
  let vi := n * 2 * PI * z_r z * sin ei / cos einf in
  velocity_triangle n V (MkBlade name (z_r z) (z_cb z) (ndeg (z_beta z)) (ndeg einf) (ndeg ei) al cl cd
    vi (vi * cos (ei + einf)) (vi * sin (ei + einf))).
Proof.
  intros Hd Hn Hz Hr. cbv zeta. set (a := Ratan2 _ _).
  pose proof PI_gt_3 as Hpi.
  assert (Ha : a = atan (V / (n * d) / (PI * z_zeta z))).
  { unfold a. apply atan2_pos. apply Rmult_lt_0_compat; lra. }
  assert (Hc : 0 < cos a).
  { rewrite Ha. pose proof (atan_bound (V / (n * d) / (PI * z_zeta z))). apply cos_gt_0; lra. }
  assert (HV : V = 2 * PI * n * z_r z * sin a / cos a).
  { assert (Ht : sin a / cos a = V / (n * d) / (PI * z_zeta z)) by (rewrite Ha at 1 2; apply tan_atan).
    replace (2 * PI * n * z_r z * sin a / cos a) with (2 * PI * n * z_r z * (sin a / cos a)) by (field; lra).
    rewrite Ht, Hr. field. repeat split; lra || auto. }
  unfold velocity_triangle, wind, inflow. cbn [b_r b_advance b_induced b_Vi b_Vx b_Vt]. rewrite !deg_rad.
  destruct (triangle_identities a ei) as [T1 T2]. rewrite (Rplus_comm ei a).
  set (q := 2 * PI * n * z_r z / cos a).
  assert (E1 : V + n * 2 * PI * z_r z * sin ei / cos a * cos (a + ei) = q * cos ei * sin (a + ei)).
  { rewrite HV at 1. transitivity (q * (sin a + sin ei * cos (a + ei))); [unfold q; field; lra|]. rewrite T1. ring. }
  assert (E2 : 2 * PI * n * z_r z - n * 2 * PI * z_r z * sin ei / cos a * sin (a + ei) = q * cos ei * cos (a + ei)).
  { transitivity (q * (cos a - sin ei * sin (a + ei))); [unfold q; field; lra|]. rewrite T2. ring. }
  rewrite E1, E2. pose proof (sin2_cos2 (a + ei)) as S. unfold Rsqr in S.
  split; [unfold q; field; lra|]. split; [unfold q; field; lra|].
  split; [|ring].
  set (v := n * 2 * PI * z_r z * sin ei / cos a).
  transitivity (v ^ 2 * (sin (a + ei) * sin (a + ei) + cos (a + ei) * cos (a + ei))); [rewrite S; ring|ring].
Qed.
Lemma triangle_rows name n V d : d <> 0 -> n <> 0 -> forall (ss : list (station R)) ei cl cd,
  Forall (fun z => 0 < z_zeta z) ss -> Forall (fun z => z_r z = z_zeta z * d / 2) ss ->
  let einf := map (fun z => Ratan2 (V / (n * d)) (PI * z_zeta z)) ss in
  let vi := map2 (fun q ei => n * 2 * PI * z_r (fst q) * sin ei / cos (snd q)) (combine ss einf) ei in
  let eb := map2 Rplus ei einf in
  Forall (velocity_triangle n V)
    (blade_rows name ss einf ei (map2 (fun q x => z_beta (fst q) - snd q - x) (combine ss einf) ei) cl cd vi
       (map2 (fun v e => v * cos e) vi eb) (map2 (fun v e => v * sin e) vi eb)).
Proof.
  intros Hd Hn. induction ss as [|s ss IH]; intros [|b ei] [|c cl] [|e cd] H1 H2; cbv zeta;
  cbn [map combine map2 blade_rows]; try constructor.
  - apply Forall_cons_iff in H1, H2. cbn [fst snd]. apply (row_triangle name n V d s b); tauto.
  - apply Forall_cons_iff in H1, H2. apply IH; tauto.
Qed.
Lemma alpha_rows name : forall (ss : list (station R)) einf ei cl cd vi vx vt,
  Forall (fun b => b_alpha b = b_pitch b - b_advance b - b_induced b)
    (blade_rows name ss einf ei (map2 (fun q x => z_beta (fst q) - snd q - x) (combine ss einf) ei) cl cd vi vx vt).
Proof.
  induction ss as [|s ss IH]; intros [|a einf] [|b ei] [|c cl] [|d cd] [|e vi] [|f vx] [|g vt];
  cbn [combine map2 blade_rows]; try constructor; [|apply IH].
  cbn [b_alpha b_pitch b_advance b_induced fst snd]. rnum. field. apply PI_neq0.
Qed.

Lemma rate_given_none V d v n J pw th : op_point V d v n J pw th -> rate_given v -> pw = None /\ th = None.
Proof.
  unfold op_point, rate_given. destruct v as [[x|[|e l]]|]; try tauto.
  destruct (dget (e :: l) "J") as [[j|?]|]; [tauto|tauto|].
  destruct (dget (e :: l) "rot_per_sec") as [[m|?]|]; [tauto|tauto|]. intros _ [H|H]; congruence.
Qed.
Lemma rate_given_same ps name : rate_given (setting_of ps name) -> rate_given (local_state ps name).
Proof. destruct ps as [[|e d]|]; cbn [setting_of local_state]; auto. Qed.

Lemma C67_alpha E cg aero ps (g : pgeom R) s q s' : run_prop E cg aero ps g s = (Ok q, s') -> sized g s ->
  Forall (fun b => b_alpha b = b_pitch b - b_advance b - b_induced b) (prop_rows g s').
Proof.
  intros H Hs. destruct (run_prop_last _ _ _ _ _ _ _ _ H Hs) as (sa & sb & A1 & A2 & A3 & _ & _).
  destruct (find_coefficients_lists _ _ _ _ A1 A2) as (cla & _ & _ & _ & _ & _ & _ & _ & L7 & _).
  unfold blades in A3.
  assert (B : p_ei s' = p_ei sb /\ p_einf s' = p_einf sb /\ p_alpha s' = p_alpha sb) by (repeat split; congruence).
  destruct B as (B1 & B2 & B3). rewrite <- B1, <- B2, <- B3 in L7.
  unfold prop_rows. cbn [find_Vi p_ei p_einf p_alpha p_CL p_CD p_Vi p_Vxi p_Vti]. rewrite L7. apply alpha_rows.
Qed.

Lemma C67_lemma E u wp (p : prop R) g cg a ps s q s' V :
  make_pgeom E u wp p = Ok g -> 0 < pr_diameter p -> 0 < pr_hub p ->
  run_prop E cg (Some a) ps g s = (Ok q, s') -> sized g s ->
  dget (an a) "V_mag" = Some V -> V <> 0 -> p_n s' <> 0 ->
  rate_given (setting_of ps (pg_name g)) ->
  (forall l, setting_of ps (pg_name g) = Some (PDict l) -> dget l "J" <> Some (PNum 0)) ->
  Forall (velocity_triangle (p_n s') V) (prop_rows g s').
Proof.
  intros Hg Hd Hh H Hs HV HV0 Hn Hrate HJ.
  destruct (make_pgeom_data _ _ _ _ _ Hg) as (_ & _ & Ed & _).
  destruct (make_pgeom_stations _ _ _ _ _ Hg) as [Hst _].
  pose proof (zeta_pos _ _ _ _ _ Hg Hd Hh) as Hzp.
  destruct (C50_lemma _ _ _ _ _ _ _ _ _ H HV) as (_ & _ & _ & _ & EJ). specialize (EJ HJ HV0 Hn).
  destruct (run_prop_last _ _ _ _ _ _ _ _ H Hs) as (sa & sb & A1 & A2 & A3 & _ & A5).
  destruct (find_coefficients_lists _ _ _ _ A1 A2) as (cla & L0 & _ & _ & _ & _ & _ & _ & L7 & _).
  pose proof (find_coefficients_core _ _ _ _ _ A1) as Cab.
  assert (Hnone : p_power s' = None /\ p_throttle s' = None).
  { apply run_prop_steps in H. destruct H as (s1 & s2 & s3 & _ & K2 & K3 & _ & Es).
    apply p_set_prop_point in K2. destruct K2 as [_ P2].
    destruct (rate_given_none _ _ _ _ _ _ _ P2 (rate_given_same _ _ Hrate)) as [N1 N2].
    rewrite N1, N2 in K3. apply find_coefficients_core in K3.
    assert (EC : core s' = core s2) by (rewrite Es, set_forces_core, find_Vi_core; exact K3).
    unfold core in EC. split; congruence. }
  destruct Hnone as [N1 N2]. specialize (A5 N1 N2).
  assert (EJa : p_J sa = V / (p_n s' * pg_d g)).
  { rewrite <- EJ. unfold core in A5, Cab. congruence. }
  unfold blades in A3.
  assert (B : p_ei s' = p_ei sb /\ p_einf s' = p_einf sb /\ p_alpha s' = p_alpha sb) by (repeat split; congruence).
  destruct B as (B1 & B2 & B3). rewrite <- B1, <- B2, <- B3 in L7. rewrite <- B2, EJa in L0.
  unfold prop_rows. cbn [find_Vi p_ei p_einf p_alpha p_CL p_CD p_Vi p_Vxi p_Vti p_n]. rewrite L7, L0. rnum.
  rewrite Ed in *.
  apply (triangle_rows (pg_name g) (p_n s') V (pr_diameter p)); auto; lra.
Qed.

(** *** Power and efficiency (C66) *)
Lemma run_prop_force_coefficients E cg aero ps (g : pgeom R) s F M Th l s' :
  run_prop E cg aero ps g s = (Ok (F, M, Th, l), s') ->
  Th = p_rho s' * p_n s' ^ 2 * pg_d g ^ 4 * p_CT s' /\
  l = - pg_rot g * (p_rho s' * p_n s' ^ 2 * pg_d g ^ 5 * p_Cl s').
Proof.
  intros H. apply run_prop_steps in H. destruct H as (s1 & s2 & s3 & _ & _ & _ & K & Es).
  set (s4 := find_Vi (pg_stations g) s3) in *.
  pose proof (set_forces_fields (F, M, Th, l) s4) as Q. rewrite <- Es in Q.
  destruct Q as (_ & Q2 & Q3 & Q4 & Q5 & _ & _ & _).
  rewrite Q2, Q3, Q4, Q5. unfold resolve in K. clear -K. rewrite fourth_pow, fifth_pow in K.
  unfold rbind in K. destruct (vec_angle _ _) as [x|]; [|discriminate].
  destruct (x =? n0)%num;
  apply (f_equal (fun o => match o with Ok y => (snd (fst y), snd y) | Err _ => (Th, l) end)) in K;
  cbv iota beta in K; cbn [fst snd] in K; apply pair_equal_spec in K; destruct K as [<- <-];
  rnum; split; ring.
Qed.
Lemma run_prop_coefficients E cg aero ps (g : pgeom R) s q s' :
  run_prop E cg aero ps g s = (Ok q, s') -> sized g s ->
  p_CP s' = 2 * PI * p_Cl s' /\ (p_CT s' <= 0 -> p_eff s' = 0) /\
  (rate_given (setting_of ps (pg_name g)) -> 0 < p_CT s' -> p_eff s' = p_CT s' * p_J s' / p_CP s').
Proof.
  intros H Hs. destruct (run_prop_last _ _ _ _ _ _ _ _ H Hs) as (sa & sb & A1 & A2 & A3 & _ & A5).
  destruct (find_coefficients_lists _ _ _ _ A1 A2) as (cla & _ & _ & _ & _ & _ & _ & _ & _ & _ & _ & C3 & C4 & C5).
  pose proof (find_coefficients_core _ _ _ _ _ A1) as Cab. unfold blades in A3.
  assert (B : p_CT s' = p_CT sb /\ p_Cl s' = p_Cl sb /\ p_CP s' = p_CP sb /\ p_eff s' = p_eff sb) by (repeat split; congruence).
  destruct B as (-> & -> & -> & ->). split; [exact C3|]. split; [exact C5|]. intros Hrate Hp.
  rewrite (C4 Hp). do 2 f_equal.
  assert (Hnone : p_power s' = None /\ p_throttle s' = None).
  { apply run_prop_steps in H. destruct H as (s1 & s2 & s3 & _ & K2 & K3 & _ & Es).
    apply p_set_prop_point in K2. destruct K2 as [_ P2].
    destruct (rate_given_none _ _ _ _ _ _ _ P2 (rate_given_same _ _ Hrate)) as [N1 N2].
    rewrite N1, N2 in K3. apply find_coefficients_core in K3.
    assert (EC : core s' = core s2) by (rewrite Es, set_forces_core, find_Vi_core; exact K3).
    unfold core in EC. split; congruence. }
  destruct Hnone as [N1 N2]. specialize (A5 N1 N2). unfold core in A5, Cab. congruence.
Qed.

Lemma C66_power_lemma E u wp (p : prop R) g cg a ps s F M Th l s' V :
  make_pgeom E u wp p = Ok g -> 0 < pr_diameter p -> quadrature (pe_simps E) ->
  run_prop E cg (Some a) ps g s = (Ok (F, M, Th, l), s') -> sized g s ->
  dget (an a) "V_mag" = Some V -> V <> 0 -> 0 < p_rho s' -> 0 < p_n s' ->
  rate_given (setting_of ps (pg_name g)) ->
  (forall d, setting_of ps (pg_name g) = Some (PDict d) -> dget d "J" <> Some (PNum 0)) ->
  let P := shaft_power E g (p_rho s') (p_n s') s' in
  p_rho s' * p_n s' ^ 3 * pr_diameter p ^ 5 * p_CP s' = P /\
  (Th <= 0 -> p_eff s' = 0) /\ (0 < Th -> P <> 0 -> p_eff s' = Th * V / P).
Proof.
  intros Hg Hd Hq H Hs HV HV0 Hr Hn Hrate HJ. cbv zeta.
  destruct (make_pgeom_data _ _ _ _ _ Hg) as (_ & _ & Ed & Er & _ & Ek & _).
  destruct (C50_lemma _ _ _ _ _ _ _ _ _ H HV) as (_ & _ & _ & _ & EJ).
  assert (Hn0 : p_n s' <> 0) by lra. specialize (EJ HJ HV0 Hn0).
  destruct (run_prop_coefficients _ _ _ _ _ _ _ _ H Hs) as (C1 & C2 & C3). specialize (C3 Hrate).
  destruct (run_prop_force_coefficients _ _ _ _ _ _ _ _ _ _ _ H) as [T1 T2].
  rewrite Ed in *.
  assert (K4 : 0 < p_rho s' * p_n s' ^ 2 * pr_diameter p ^ 4).
  { apply Rmult_lt_0_compat; [apply Rmult_lt_0_compat; [exact Hr|]|]; apply pow_lt; assumption. }
  assert (EP : p_rho s' * p_n s' ^ 3 * pr_diameter p ^ 5 * p_CP s' = shaft_power E g (p_rho s') (p_n s') s').
  { rewrite C1. unfold shaft_power, shaft_torque. rewrite Ek.
    destruct (run_prop_last _ _ _ _ _ _ _ _ H Hs) as (sa & sb & A1 & A2 & A3 & _ & _).
    destruct (find_coefficients_lists _ _ _ _ A1 A2) as (cla & _ & L1 & L2 & L3 & L4 & L5 & L6 & _ & _ & D2 & _).
    destruct (make_pgeom_stations _ _ _ _ _ Hg) as [Hst Hz].
    unfold blades in A3.
    assert (B : p_ei s' = p_ei sb /\ p_einf s' = p_einf sb /\ p_alpha s' = p_alpha sb /\ p_CL s' = p_CL sb /\
                p_CD s' = p_CD sb /\ p_Cl s' = p_Cl sb) by (repeat split; congruence).
    destruct B as (B1 & B2 & B3 & B4 & B5 & B7).
    rewrite <- B1 in *. rewrite <- B2 in *. rewrite <- B3 in *. rewrite <- B4 in *. rewrite <- B5 in *.
    rewrite B7, D2.
    unfold prop_rows. cbn [find_Vi p_ei p_einf p_alpha p_CL p_CD p_Vi p_Vxi p_Vti].
    set (vi := map2 _ _ (p_ei s')).
    assert (V1 : List.length vi = List.length (pg_stations g)) by (unfold vi; rewrite map2_min, combine_length; lia).
    set (vx := map2 _ vi _). set (vt := map2 _ vi _).
    assert (V2 : List.length vx = List.length (pg_stations g)) by (unfold vx; rewrite !map2_min; lia).
    assert (V3 : List.length vt = List.length (pg_stations g)) by (unfold vt; rewrite !map2_min; lia).
    rewrite Ed, Ek in *.
    destruct (thrust_rows (pg_name g) (pr_blades p) (pr_diameter p) (p_rho s') (p_n s')) with
      (ss := pg_stations g) (einf := p_einf s') (ei := p_ei s') (al := p_alpha s') (cl := p_CL s') (cla := cla)
      (cd := p_CD s') (vi := vi) (vx := vx) (vt := vt) as (R0 & R1 & R2 & R3); auto; [lra|].
    change (fun b : blade_row => b_r b) with (@b_r R).
    rewrite R1, R3. clearbody vi vx vt.
    set (rows := blade_rows _ _ _ _ _ _ _ _ _ _) in *.
    rewrite !Hq by (lra || rewrite !map_length; exact R0). field. }
  split; [exact EP|]. split.
  - intros HT. apply C2. rewrite T1 in HT. destruct (Rle_lt_dec (p_CT s') 0) as [|X]; [assumption|exfalso].
    pose proof (Rmult_lt_0_compat _ _ K4 X). lra.
  - intros HT HP. assert (X : 0 < p_CT s').
    { destruct (Rle_lt_dec (p_CT s') 0) as [X|]; [exfalso|assumption]. rewrite T1 in HT.
      assert (0 <= p_rho s' * p_n s' ^ 2 * pr_diameter p ^ 4 * - p_CT s') by (apply Rmult_le_pos; lra). lra. }
    rewrite (C3 X), EJ, <- EP, T1.
    assert (Z : p_CP s' <> 0) by (intros Z; rewrite Z in EP; lra).
    field. repeat split; lra.
Qed.
