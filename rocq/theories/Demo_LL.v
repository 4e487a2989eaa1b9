(** A concrete airplane whose lifting-line solution can be written down: an untwisted,
    unswept, cambered wing of span 8 and chord 1 with one section per side. *)
From Coq Require Import Reals ZArith String Bool Arith Lia Lra List.
From Verif Require Import Base Num RVec Geometry Api Grid LLModel Spec_Grid Spec_Geom Spec_LL Spec_BS Grid_facts Grid_R Grid_thm
  LL_state LL_R LL_solve LL_props LL_thm LL_thm2 Linalg Demo.
Import ListNotations.
Local Open Scope string_scope.

Section Flyer.
  Context {T : Type} {N : num_ops T}.
  Definition flyer_calls : list (api_call T) :=
    [ CAddWing "main" (None, "tip") "both"
        [("semispan", VInt 4); ("root_chord", VInt 1); ("tip_chord", VInt 1); ("sweep", VInt 0);
         ("dihedral", VInt 0); ("washout", VInt 0); ("mount_angle", VInt 0); ("grid", VInt 1)];
      CAirfoil 0 "section" "both"
        [("alpha_L0", VNum (ndec (-1) 1)); ("CL_alpha", VInt 6); ("CL_max", VNum (ndec 4 1));
         ("Cm_L0", VNum (ndec (-5) 2)); ("Cm_alpha", VInt 0); ("CD0", VNum (ndec 1 2));
         ("CD0_L", VInt 0); ("CD0_L2", VInt 0)];
      CControl 0 [("percent_span", VList [VInt 0; VInt 1]); ("percent_chord", VList [VInt 0; VInt 0]);
                  ("mix", VDict [("elevator", VInt 1)])] ].
  Definition flyer : airplane T := run_calls flyer_calls (new_airplane "flyer" None).
  Lemma flyer_built : built flyer.
  Proof. apply built_calls. constructor. Qed.
  Lemma flyer_all_return : all_return flyer_calls (new_airplane "flyer" None).
  Proof. simpl. repeat split; eexists; reflexivity. Qed.
  Definition flyer_val : airplane T := Eval cbv -[nint ndec n0 n1 vzero] in flyer.
  Lemma flyer_eq : flyer = flyer_val.
  Proof. vm_compute. reflexivity. Qed.
  Definition flyer_af : airfoil T :=
    MkAirfoil "section" VNone (ndec (-1) 1) (nint 6) (ndec 4 1) (ndec (-5) 2) (nint 0) (ndec 1 2) (nint 0) (nint 0).
  Definition flyer_cs : control_surface T :=
    MkCS (nint 0) (nint 1) (nint 0) (nint 0) true [("elevator", nint 1)].
  Definition flyer_seg (name : string) (side : seg_side) (at_ : string) : segment T :=
    MkSegment name side PAirplane at_ (V3 (vx vzero) (vy vzero) (vz vzero)) true n0 (nint 4) (nint 1) (nint 1)
              (nint 0) (nint 0) (nint 0) (nint 0) flyer_af flyer_af flyer_cs 1.
  Definition seg_l := flyer_seg "left_main" SLeft "left_tip".
  Definition seg_r := flyer_seg "right_main" SRight "right_tip".
  Lemma flyer_segs : wingsegments flyer_val = [seg_l; seg_r].
  Proof. reflexivity. Qed.
  Lemma flyer_num : num_sections flyer_val = 2.
  Proof. reflexivity. Qed.
  Lemma flyer_pos s at_ side name c : s = flyer_seg name side c ->
    seg_position (position_fuel flyer_val) flyer_val s at_ =
    if String.eqb at_ "left_tip" then Ok (vadd (seg_local_left s) vzero)
    else if String.eqb at_ "right_tip" then Ok (vadd (seg_local_right s) vzero) else Err RuntimeError.
  Proof. intros ->. reflexivity. Qed.
End Flyer.

Local Open Scope R_scope.

Lemma section_ext (a b : section R) :
  s_name a = s_name b -> s_sp a = s_sp b -> s_sp1 a = s_sp1 b -> s_sp2 a = s_sp2 b ->
  s_r a = s_r b -> s_r1 a = s_r1 b -> s_r2 a = s_r2 b -> s_c a = s_c b -> s_c1 a = s_c1 b -> s_c2 a = s_c2 b ->
  s_dS a = s_dS b -> s_cla a = s_cla b -> s_al0 a = s_al0 b -> s_cma a = s_cma b -> s_cml0 a = s_cml0 b ->
  s_cd0 a = s_cd0 b -> s_cd1 a = s_cd1 b -> s_cd2 a = s_cd2 b -> s_clmax a = s_clmax b ->
  s_washout a = s_washout b -> s_mount a = s_mount b -> s_dihedral a = s_dihedral b -> s_sweep a = s_sweep b ->
  s_ua a = s_ua b -> s_un a = s_un b -> s_us a = s_us b -> s_flap_eff a = s_flap_eff b ->
  s_mix_a a = s_mix_a b -> s_mix_e a = s_mix_e b -> s_mix_r a = s_mix_r b -> s_mix_f a = s_mix_f b ->
  s_cmd a = s_cmd b -> s_ic2 a = s_ic2 b -> a = b.
Proof. destruct a, b; cbn; intros; subst; reflexivity. Qed.

(** The section whose bound vortex runs from (0, y, 0) to (0, y + 4, 0). *)
Definition same3 (x : R) : tri R := Tri x x x.
Definition flyer_section (name : string) (y : R) : section R :=
  MkSection name (1/2) 0 1 (V3 0 (y + 2) 0) (V3 0 y 0) (V3 0 (y + 4) 0) 1 1 1 4
            (same3 6) (same3 (-1/10)) (same3 0) (same3 (-5/100)) (same3 (1/100)) (same3 0) (same3 0) (same3 (4/10))
            0 0 0 0 (V3 (-1) 0 0) (V3 0 0 (-1)) (V3 0 (-1) 0) 0 0 1 0 0 0 4.
Definition sec_l := flyer_section "left_main" (-4).
Definition sec_r := flyer_section "right_main" 0.

Definition flyer_grid : grid R :=
  MkGrid 2 [seg_l; seg_r] [(0, 1); (1, 2)]%nat [sec_l; sec_r] 8.

Lemma nrad0 : nrad (T := R) (nint 0) = 0.
Proof. rnum. unfold Rdiv. ring. Qed.
Definition y_of (side : seg_side) : R := match side with SLeft => -4 | SRight => 0 end.
Lemma seg_local_flyer name side c :
  vadd (seg_local_left (T := R) (flyer_seg name side c)) vzero = V3 0 (y_of side) 0 /\
  vadd (seg_local_right (T := R) (flyer_seg name side c)) vzero = V3 0 (y_of side + 4) 0.
Proof.
  unfold seg_local_left, seg_local_right. destruct side; cbn [flyer_seg sg_side sg_delta sg_sweep sg_dihedral sg_span sg_yoffset]; cbv zeta;
    rewrite ?nrad0; unfold y_of; rnum; split; apply vec_eq; cbn; rewrite ?sin_0, ?cos_0; field.
Qed.
Lemma point_flyer y t : segment_point (V3 0 y 0 : vec3 R) (V3 0 (y + 4) 0) t = V3 0 (y + 4 * t) 0.
Proof.
  assert (E : vnorm (vsub (V3 0 (y + 4) 0) (V3 0 y 0) : vec3 R) = 4).
  { apply vnorm_eq; [lra|]. vunf. ring. }
  unfold segment_point, unit_s. cbv zeta. rewrite E. apply vec_eq; vunf; field.
Qed.
Lemma flyer_control name side c :
  section_control (T := R) (flyer_seg name side c) (1/2) = (0, 0, (0, 1, 0, 0)).
Proof.
  set (sg := flyer_seg name side c).
  destruct (section_control_spec sg (1/2)) as [H _].
  - cbn. lra.
  - assert (Hf : from_root (sg_side sg) (1/2) = 1/2) by (unfold sg; destruct side; cbn; lra).
    rewrite Hf in H. rewrite H; [|unfold covered; cbn; lra].
    assert (Hc : flap_chord (sg_control sg) (1/2) = 0) by (unfold flap_chord, between; cbn; field).
    rewrite Hc. destruct zero_chord_ineffective as [-> ->].
    unfold mix_of, side_sign. change (cs_mix (sg_control sg)) with [("elevator"%string, IZR 1)].
    cbn [dget String.eqb Ascii.eqb Bool.eqb].
    repeat apply (f_equal2 pair); try reflexivity; ring.
Qed.
Lemma dec_vals : Rdec (-1) 1 = -1/10 /\ Rdec 4 1 = 4/10 /\ Rdec (-5) 2 = -5/100 /\ Rdec 1 2 = 1/100 /\ Rdec 5 1 = 1/2.
Proof. unfold Rdec. simpl. repeat split; lra. Qed.
Lemma interp_same (x t : R) : interp x x t = x.
Proof. unfold interp. rnum. ring. Qed.
Lemma tri_same (x t : R) : interp_tri x x t = same3 x.
Proof. unfold interp_tri. now rewrite interp_same. Qed.
Lemma flyer_sps cos_ : sp_cp (T := R) cos_ 1 0 = 1/2 /\ sp_1 (T := R) cos_ 1 0 = 0 /\ sp_2 (T := R) cos_ 1 0 = 1.
Proof.
  unfold sp_cp, sp_1, sp_2, spacing, linear_spacing, cosine_spacing. destruct dec_vals as (_ & _ & _ & _ & Ed).
  destruct cos_; cbn [INR Nat.add] in *; rnum; rewrite ?Ed; simpl. 2: repeat split; field.
  replace (PI / 1 * (1 - 1 / 2)) with (PI / 2) by field. replace (PI / 1 * (0 - 0)) with 0 by field. replace (PI / 1 * (1 - 0)) with PI by field.
  rewrite cos_PI2, cos_0, cos_PI. repeat split; field.
Qed.

Lemma flyer_frame side c name :
  unit_vectors (T := R) (sg_side (flyer_seg name side c)) (nint 0) 0 (nint 0) = (V3 (-1) 0 0, V3 0 0 (-1), V3 0 (-1) 0).
Proof.
  unfold unit_vectors. cbv zeta.
  assert (E : nrad (T := R) (nsub (nint 0) 0) = 0) by (rnum; unfold Rdiv; ring).
  rewrite E, nrad0. rnum. rewrite sin_0, cos_0.
  destruct side; cbn [sg_side flyer_seg]; apply f_equal2; [apply f_equal2| |apply f_equal2|]; apply vec_eq; vunf; ring.
Qed.
Lemma flyer_make cos_ name side c :
  set_ic2 (make_section cos_ (flyer_seg name side c) (V3 0 (y_of side) 0) (V3 0 (y_of side + 4) 0) 0)
  = flyer_section name (y_of side).
Proof.
  set (sg := flyer_seg name side c). set (L := V3 0 (y_of side) 0). set (R' := V3 0 (y_of side + 4) 0).
  destruct (flyer_sps cos_) as (P0 & P1 & P2). change 1%nat with (sg_num sg) in P0, P1, P2.
  pose proof (ms_r cos_ sg L R' 0) as E1. pose proof (ms_r1 cos_ sg L R' 0) as E2. pose proof (ms_r2 cos_ sg L R' 0) as E3.
  pose proof (ms_c cos_ sg L R' 0) as E4. pose proof (ms_c1 cos_ sg L R' 0) as E5. pose proof (ms_c2 cos_ sg L R' 0) as E6.
  pose proof (ms_dS cos_ sg L R' 0) as E7. pose proof (ms_washout cos_ sg L R' 0) as E8. pose proof (ms_frame cos_ sg L R' 0) as E9.
  pose proof (ms_control cos_ sg L R' 0) as E10. pose proof (ms_coef cos_ sg L R' 0) as E11. cbv zeta in E11.
  pose proof (ms_angles cos_ sg L R' 0) as E12.
  pose proof (ms_sp cos_ sg L R' 0) as E13. pose proof (ms_sp1 cos_ sg L R' 0) as E14. pose proof (ms_sp2 cos_ sg L R' 0) as E15.
  assert (E16 : s_name (make_section cos_ sg L R' 0) = name).
  { unfold make_section. destruct (sg_side sg); cbn [lr_of_side]; destruct (section_control sg _) as [[? ?] [[[? ?] ?] ?]]; reflexivity. }
  set (ms := make_section cos_ sg L R' 0) in *.
  rewrite P0 in E1, E4, E10, E11, E13. rewrite P1 in E2, E5, E14. rewrite P2 in E3, E6, E15.
  unfold L, R' in E1, E2, E3. rewrite point_flyer in E1, E2, E3.
  replace (y_of side + 4 * (1/2)) with (y_of side + 2) in E1 by lra.
  replace (y_of side + 4 * 0) with (y_of side) in E2 by lra.
  replace (y_of side + 4 * 1) with (y_of side + 4) in E3 by lra.
  assert (Hc : chord_l sg = 1 /\ chord_r sg = 1) by (unfold chord_l, chord_r; destruct side; cbn; auto).
  destruct Hc as [C1 C2]. rewrite C1, C2, interp_same in E4, E5, E6.
  assert (Ha : af_l sg = flyer_af /\ af_r sg = flyer_af) by (unfold af_l, af_r; destruct side; cbn; auto).
  destruct Ha as [A1 A2]. rewrite A1, A2, !tri_same in E11. destruct E11 as (F1 & F2 & F3 & F4 & F5 & F6 & F7 & F8).
  assert (Hw : wash_at cos_ sg 0 = 0) by (unfold wash_at; destruct side; cbn [flyer_seg sg sg_side sg_washout]; apply interp_same).
  rewrite Hw in E8, E9. unfold sg in E9, E10, E12 at 1 2 3. rewrite flyer_control in E10.
  change (sg_mount (flyer_seg name side c)) with (nint (T := R) 0) in E9.
  change (sg_dihedral (flyer_seg name side c)) with (nint (T := R) 0) in E9. rewrite flyer_frame in E9.
  apply pair_equal_spec in E9. destruct E9 as [E9 U3]. apply pair_equal_spec in E9. destruct E9 as [U1 U2].
  apply pair_equal_spec in E10. destruct E10 as [E10 M]. apply pair_equal_spec in E10. destruct E10 as [M1 M2].
  apply pair_equal_spec in M. destruct M as [M M6]. apply pair_equal_spec in M. destruct M as [M M5].
  apply pair_equal_spec in M. destruct M as [M3 M4].
  destruct E12 as (G1 & G2 & G3).
  destruct dec_vals as (D1 & D2 & D3 & D4 & D5).
  assert (Hd : s_dS ms = 4).
  { rewrite E7, E2, E3, E5, E6. unfold section_area. cbv zeta. change (sg_sweep sg) with (nint (T := R) 0). rewrite nrad0.
    replace (vnorm _) with 4; [rnum; rewrite cos_0; field|]. symmetry. apply vnorm_eq; [lra|]. vunf. ring. }
  apply section_ext;
    cbn [set_ic2 flyer_section s_name s_sp s_sp1 s_sp2 s_r s_r1 s_r2 s_c s_c1 s_c2 s_dS s_cla s_al0 s_cma s_cml0 s_cd0 s_cd1 s_cd2
         s_clmax s_washout s_mount s_dihedral s_sweep s_ua s_un s_us s_flap_eff s_mix_a s_mix_e s_mix_r s_mix_f s_cmd s_ic2];
    auto.
  all: try (rewrite ?F1, ?F2, ?F3, ?F4, ?F5, ?F6, ?F7, ?F8;
            cbn [flyer_af af_CL_alpha af_alpha_L0 af_Cm_alpha af_Cm_L0 af_CD_0 af_CD_L af_CD_L2 af_CL_max];
            change (ndec (T := R)) with Rdec; rewrite ?D1, ?D2, ?D3, ?D4; reflexivity).
  - unfold integral_chord2. rewrite U3, E2, E3, E5, E6. cbv zeta.
    replace (vdot _ _) with (-4) by (vunf; ring). rnum. rewrite Rabs_left by lra. field.
Qed.

Lemma flyer_block cos_ name side c :
  segment_block cos_ flyer_val (flyer_seg (T := R) name side c)
  = Ok [make_section cos_ (flyer_seg name side c) (V3 0 (y_of side) 0) (V3 0 (y_of side + 4) 0) 0].
Proof.
  unfold segment_block. cbn [andb].
  rewrite !(flyer_pos _ _ side name c eq_refl). cbn [String.eqb Ascii.eqb Bool.eqb rbind].
  destruct (seg_local_flyer name side c) as [-> ->].
  destruct (seg_control_span _) as [a b] eqn:E.
  assert (neqb (nsub b a) (n0 (T := R)) = false) as ->.
  { apply Reqb_false. unfold seg_control_span in E. cbn [flyer_seg sg_side sg_control flyer_cs cs_span_root cs_span_tip] in E.
    destruct side; inversion E; rnum; lra. }
  destruct cos_; reflexivity.
Qed.

Lemma flyer_grid_ok cos_ : make_grid cos_ (flyer (T := R)) = Ok flyer_grid.
Proof.
  assert (H : forall side c name, add_ref_area (flyer_seg (T := R) name side c)
     [make_section cos_ (flyer_seg name side c) (V3 0 (y_of side) 0) (V3 0 (y_of side + 4) 0) 0] = fun x => x + 4).
  { intros. unfold add_ref_area. cbn [sg_is_main flyer_seg map]. apply FunctionalExtensionality.functional_extensionality.
    intros x. pose proof (f_equal (@s_dS R) (flyer_make cos_ name side c)) as E. cbn [set_ic2 s_dS flyer_section] in E. rewrite E.
    rewrite nsum_cons, nsum_nil. rnum. ring. }
  rewrite flyer_eq. unfold make_grid. rewrite flyer_segs, flyer_num. unfold seg_l, seg_r. cbv zeta.
  cbn [fill]. rewrite !flyer_block. cbn [rbind]. rewrite !H.
  change (sg_num (flyer_seg (T := R) "left_main" SLeft "left_tip")) with 1%nat.
  change (sg_num (flyer_seg (T := R) "right_main" SRight "right_tip")) with 1%nat.
  unfold write_block at 1. cbn [List.length repeat Nat.add Nat.leb firstn skipn app rbind].
  unfold write_block at 1. cbn [List.length repeat Nat.add Nat.leb firstn skipn app rbind sg_num].
  cbn [map]. rewrite !flyer_make.
  replace (n0 + 4 + 4) with 8 by (rnum; lra). reflexivity.
Qed.

(** *** The solution of the two-section wing in a straight flow *)
Definition back (V : R) : vec3 R := V3 (- V) 0 0.
Definition flyer_cells (V rho d1 d2 e1 e2 : R) : list (cell R) :=
  [MkCell sec_l (back V) rho d1 e1; MkCell sec_r (back V) rho d2 e2].
Definition flyer_gamma (V : R) : R := 6 / 10 * PI * V / (2 * PI + 1).
Definition flyer_down : R := 1 / 10 / (2 * PI + 1).      (* downwash angle, tangent *)

Lemma trail_flyer (y : R) : y <> 0 -> trail_term (V3 (-1) 0 0) (V3 0 y 0) = V3 0 0 (- / y).
Proof.
  intros Hy. unfold trail_term. cbv zeta.
  replace (vdot (V3 (-1) 0 0) (V3 0 y 0)) with 0 by (vunf; ring).
  assert (E : vnorm (V3 0 y 0 : vec3 R) * (vnorm (V3 0 y 0) - 0) = y * y).
  { replace (vnorm (V3 0 y 0 : vec3 R) - 0) with (vnorm (V3 0 y 0 : vec3 R)) by ring. rewrite vnorm_sq. vunf. ring. }
  rnum. rewrite E. apply vec_eq; vunf; field; auto.
Qed.
Lemma bound_flyer same (a b : R) : bound_term (T := R) same (V3 0 a 0) (V3 0 b 0) = vzero.
Proof.
  unfold bound_term. cbv zeta. destruct same; auto.
  replace (vcross (V3 0 a 0) (V3 0 b 0)) with (vzero : vec3 R) by (apply vec_eq; vunf; ring).
  rewrite vscale_0, vdivs_scale, vscale_0. reflexivity.
Qed.
Lemma induced_flyer same n1 n2 (yi yj : R) : yi + 2 - yj <> 0 -> yi + 2 - (yj + 4) <> 0 ->
  induced (V3 (-1) 0 0) same (flyer_section n1 yi) (flyer_section n2 yj)
  = V3 0 0 (1 / (4 * PI) * (/ (yi + 2 - yj) - / (yi + 2 - (yj + 4)))).
Proof.
  intros H1 H2. unfold induced. cbv zeta. cbn [flyer_section s_r s_r1 s_r2].
  replace (vsub (V3 0 (yi + 2) 0) (V3 0 yj 0)) with (V3 0 (yi + 2 - yj) 0 : vec3 R) by (apply vec_eq; vunf; ring).
  replace (vsub (V3 0 (yi + 2) 0) (V3 0 (yj + 4) 0)) with (V3 0 (yi + 2 - (yj + 4)) 0 : vec3 R) by (apply vec_eq; vunf; ring).
  rewrite !trail_flyer, bound_flyer by auto. rnum. apply vec_eq; vunf; ring.
Qed.
Lemma induced_values :
  let u := V3 (-1) 0 0 in
  (forall same, induced u same sec_l sec_l = V3 0 0 (1 / (4 * PI))) /\
  (forall same, induced u same sec_r sec_r = V3 0 0 (1 / (4 * PI))) /\
  (forall same, induced u same sec_l sec_r = V3 0 0 (- (1 / (12 * PI)))) /\
  (forall same, induced u same sec_r sec_l = V3 0 0 (- (1 / (12 * PI)))).
Proof.
  pose proof PI_RGT_0. cbv zeta. unfold sec_l, sec_r.
  repeat split; intros; rewrite induced_flyer by lra; apply vec_eq; cbn [vx vy vz]; auto; field; lra.
Qed.

Lemma norm_back V : 0 < V -> vnorm (back V) = V.
Proof. intros. apply vnorm_eq; [lra|]. unfold back. vunf. ring. Qed.

Lemma flyer_matrix V rho d1 d2 e1 e2 : 0 < V ->
  a_matrix (V3 (-1) 0 0) (flyer_cells V rho d1 d2 e1 e2)
  = [[V * (8 + 6 / PI); - (2 * V / PI)]; [- (2 * V / PI); V * (8 + 6 / PI)]] /\
  map b_entry (flyer_cells V rho d1 d2 e1 e2) = [24/10 * V ^ 2; 24/10 * V ^ 2].
Proof.
  intros HV. pose proof PI_RGT_0. destruct induced_values as (I1 & I2 & I3 & I4). cbv zeta in *.
  assert (Hdl : forall name y, vnorm (vcross (back V) (vsub (s_r2 (flyer_section name y)) (s_r1 (flyer_section name y)))) = 4 * V).
  { intros. apply vnorm_eq; [lra|]. cbn [flyer_section s_r1 s_r2]. unfold back. vunf. ring. }
  split.
  - unfold a_matrix, mapi, flyer_cells. cbn [mapi_from Nat.eqb]. unfold a_entry. cbv zeta. cbn [c_v c_sec].
    rewrite I1, I2, I3, I4. change (s_r2 sec_l) with (s_r2 (flyer_section "left_main" (-4))).
    change (s_r1 sec_l) with (s_r1 (flyer_section "left_main" (-4))).
    change (s_r2 sec_r) with (s_r2 (flyer_section "right_main" 0)).
    change (s_r1 sec_r) with (s_r1 (flyer_section "right_main" 0)). rewrite !Hdl, norm_back by auto.
    change (s_un sec_l) with (V3 0 0 (-1)). change (s_un sec_r) with (V3 0 0 (-1)).
    change (s_dS sec_l) with 4. change (s_dS sec_r) with 4.
    change (tm (s_cla sec_l)) with 6. change (tm (s_cla sec_r)) with 6.
    unfold vdot. cbn [vx vy vz]. rnum.
    repeat apply (f_equal2 cons); auto; field; lra.
  - unfold flyer_cells. cbn [map]. rewrite !b_entry_spec. unfold lift_coefficient, across.
    cbn [c_v c_sec c_rho c_delta c_eff]. rewrite norm_back by auto.
    assert (Z : forall name y, atan (vdot (back V) (s_un (flyer_section name y)) / vdot (back V) (s_ua (flyer_section name y))) = 0).
    { intros. cbn [flyer_section s_un s_ua]. unfold back. transitivity (atan 0); [f_equal; vunf; field; lra|apply atan_0]. }
    unfold eff_flap. cbn [c_sec c_eff c_delta]. unfold sec_l, sec_r. rewrite !Z.
    cbn [flyer_section s_flap_eff s_dS s_sp s_cla s_al0 same3 tl tr]. rnum.
    repeat apply (f_equal2 cons); auto; field.
Qed.

Lemma flyer_answer ls V rho d1 d2 e1 e2 : exact_solver ls -> 0 < V ->
  ls (a_matrix (V3 (-1) 0 0) (flyer_cells V rho d1 d2 e1 e2)) (map b_entry (flyer_cells V rho d1 d2 e1 e2))
  = Some [flyer_gamma V; flyer_gamma V].
Proof.
  intros He HV. destruct (flyer_matrix V rho d1 d2 e1 e2 HV) as [-> ->].
  pose proof PI_RGT_0.
  assert (Hr : forall a b c d : R, row_times [a; b] [c; d] = a * c + b * d).
  { intros. unfold row_times. cbn [map2]. rewrite !nsum_cons, nsum_nil. ring. }
  apply exact_solver_answers; auto.
  - repeat constructor.
  - split; auto. cbn [map]. rewrite !Hr. unfold flyer_gamma.
    repeat apply (f_equal2 cons); auto; field; lra.
  - intros y [Hl Hy]. destruct y as [|x [|y [|]]]; try discriminate. cbn [map] in Hy. rewrite !Hr in Hy.
    injection Hy as E1 E2.
    assert (Es : (x - y) * (V * (8 + 8 / PI)) = 0).
    { replace (V * (8 + 8 / PI)) with (V * (8 + 6 / PI) + 2 * V / PI) by (field; lra). nra. }
    assert (0 < / PI) by (apply Rinv_0_lt_compat; lra).
    assert (0 < V * (8 + 8 / PI)) by (apply Rmult_lt_0_compat; unfold Rdiv; nra).
    assert (x = y) by (apply Rmult_integral in Es; lra). subst y.
    assert (Ex : x = flyer_gamma V).
    { apply (Rmult_eq_reg_r (V * (8 + 4 / PI))).
      - transitivity (24/10 * (V * (V * 1))); [rewrite <- E1; field; lra|]. unfold flyer_gamma. field. lra.
      - assert (0 < V * (8 + 4 / PI)) by (apply Rmult_lt_0_compat; unfold Rdiv; nra). lra. }
    now subst.
Qed.

Lemma flyer_velocity V : 0 < V ->
  vadd (back V) (vsum [vscale (flyer_gamma V) (V3 0 0 (1 / (4 * PI))); vscale (flyer_gamma V) (V3 0 0 (- (1 / (12 * PI))))])
  = V3 (- V) 0 (V * flyer_down) /\
  vadd (back V) (vsum [vscale (flyer_gamma V) (V3 0 0 (- (1 / (12 * PI)))); vscale (flyer_gamma V) (V3 0 0 (1 / (4 * PI)))])
  = V3 (- V) 0 (V * flyer_down).
Proof.
  intros HV. pose proof PI_RGT_0. rewrite !vsum_cons, vsum_nil. unfold back, flyer_gamma, flyer_down.
  split; apply vec_eq; vunf; try ring; field; lra.
Qed.

(** Loads on the sections: the two sections are alike. *)
Definition flyer_speed (V : R) : R := V * sqrt (1 + flyer_down ^ 2).
Definition flyer_alpha : R := - atan flyer_down.
Definition flyer_cd (d : R) : R := 1 / 100 + 2 / 1000 * Rabs d * 180 / PI.

Lemma flyer_sols V rho d1 d2 e1 e2 cg : 0 < V ->
  exists a b, solve_cells (V3 (-1) 0 0) cg (flyer_cells V rho d1 d2 e1 e2) [flyer_gamma V; flyer_gamma V] = [a; b] /\
    so_force a = V3 (rho * flyer_gamma V * - (4 * (V * flyer_down))) 0 (rho * flyer_gamma V * - (4 * V)) /\
    so_force b = so_force a /\
    so_par a = vscale (/ 2 * rho * V * V * flyer_cd d1 * 4 / flyer_speed V) (V3 (- V) 0 (V * flyer_down)) /\
    so_par b = vscale (/ 2 * rho * V * V * flyer_cd d2 * 4 / flyer_speed V) (V3 (- V) 0 (V * flyer_down)) /\
    so_cl a = 6 * (flyer_alpha + 1 / 10) /\ so_cl b = 6 * (flyer_alpha + 1 / 10).
Proof.
  intros HV. pose proof PI_RGT_0. destruct induced_values as (I1 & I2 & I3 & I4). cbv zeta in *.
  destruct (flyer_velocity V HV) as [W1 W2].
  unfold solve_cells, flyer_cells. cbn [solve_cells_from].
  unfold total_velocity, mapi. cbn [mapi_from map2 Nat.eqb c_v c_sec]. rewrite I1, I2, I3, I4, W1, W2.
  assert (Hs : vnorm (V3 (- V) 0 (V * flyer_down)) = flyer_speed V).
  { unfold flyer_speed. apply vnorm_eq.
    - apply Rmult_le_pos; [lra|apply sqrt_pos].
    - pose proof (sqrt_sqrt (1 + flyer_down ^ 2)) as E. vunf.
      replace (V * sqrt (1 + flyer_down ^ 2) * (V * sqrt (1 + flyer_down ^ 2)))
        with (V * V * (sqrt (1 + flyer_down ^ 2) * sqrt (1 + flyer_down ^ 2))) by ring.
      rewrite E by nra. ring. }
  assert (Ha : forall name y, natan2 (vdot (V3 (- V) 0 (V * flyer_down)) (s_un (flyer_section name y)))
                        (vdot (V3 (- V) 0 (V * flyer_down)) (s_ua (flyer_section name y))) = flyer_alpha).
  { intros. cbn [flyer_section s_un s_ua]. change (natan2 (T := R)) with Ratan2. unfold Ratan2.
    replace (vdot (V3 (- V) 0 (V * flyer_down)) (V3 0 0 (-1))) with (- (V * flyer_down)) by (vunf; ring).
    replace (vdot (V3 (- V) 0 (V * flyer_down)) (V3 (-1) 0 0)) with V by (vunf; ring).
    destruct (Rlt_dec 0 V); [|lra]. unfold flyer_alpha. rewrite <- atan_opp. f_equal. field. lra. }
  eexists _, _. split; [reflexivity|].
  assert (S : forall name y dd ee,
    let c := MkCell (flyer_section name y) (back V) rho dd ee in
    let so := solve_cell cg (flyer_gamma V) (V3 (- V) 0 (V * flyer_down)) c in
    so_force so = V3 (rho * flyer_gamma V * - (4 * (V * flyer_down))) 0 (rho * flyer_gamma V * - (4 * V)) /\
    so_par so = vscale (/ 2 * rho * V * V * flyer_cd dd * 4 / flyer_speed V) (V3 (- V) 0 (V * flyer_down)) /\
    so_cl so = 6 * (flyer_alpha + 1 / 10)).
  { intros name y dd ee c so. unfold so, solve_cell. cbv zeta. cbn [so_force so_par so_cl c c_sec c_v c_rho c_delta].
    rewrite Ha, Hs, norm_back by auto. split; [|split].
    - cbn [flyer_section s_r1 s_r2]. apply vec_eq; vunf; ring.
    - rewrite vdivs_scale, vscale_scale. f_equal. unfold section_cd, section_cl, flyer_cd.
      cbn [flyer_section s_cd0 s_cd1 s_cd2 s_cla s_al0 s_sp s_dS same3 tl tr]. rnum. rewrite Rdec_5_1, Rdec_2_3.
      assert (flyer_speed V <> 0).
      { rewrite <- Hs. pose proof (vnorm_pos (V3 (- V) 0 (V * flyer_down))) as P. apply Rgt_not_eq, P.
        intros K. apply (f_equal vx) in K. cbn in K. lra. }
      field. split; lra.
    - unfold section_cl. cbn [flyer_section s_cla s_al0 s_sp same3 tl tr]. rnum. field. }
  destruct (S "left_main"%string (-4) d1 e1) as (A1 & A2 & A3). destruct (S "right_main"%string 0 d2 e2) as (B1 & B2 & B3).
  unfold sec_l, sec_r. refine (conj A1 (conj _ (conj A2 (conj B2 (conj A3 B3))))). rewrite B1. symmetry. exact A1.
Qed.

Lemma flyer_solves ls cg a c s s1 s2 V rho d1 d2 e1 e2 : exact_solver ls -> 0 < V ->
  process_aero flyer_grid cg a s = (Ok tt, s1) -> process_control flyer_grid c s1 = (Ok tt, s2) ->
  l_v s2 = [back V; back V] -> l_uinf s2 = V3 (-1) 0 0 -> l_rho s2 = [rho; rho] ->
  l_delta s2 = [d1; d2] -> l_eff s2 = [e1; e2] ->
  exists s' res, ll_solve ls flyer_grid cg "linear" a c s = (Ok TheResultsDict, s') /\
    l_results s' = Some res /\ l_gamma s' = Some [flyer_gamma V; flyer_gamma V] /\
    inputs s' = inputs s2 /\
    FZ (r_inviscid res) = - (8 * (rho * flyer_gamma V * V)) /\
    FX (r_viscous res) = - (2 * rho * V * V * V / flyer_speed V * (flyer_cd d1 + flyer_cd d2)) /\
    l_cl s' = Some [6 * (flyer_alpha + 1 / 10); 6 * (flyer_alpha + 1 / 10)].
Proof.
  intros He HV H1 H2 Ev Eu Er Ed Ee. unfold ll_solve, sbind. rewrite H1, H2.
  change (String.eqb "linear" "linear") with true. cbv iota.
  unfold linear_solve.
  assert (Ec : cells flyer_grid s2 = flyer_cells V rho d1 d2 e1 e2) by (unfold cells; rewrite Ev, Er, Ed, Ee; reflexivity).
  rewrite Ec, Eu, (flyer_answer ls V rho d1 d2 e1 e2 He HV).
  destruct (flyer_sols V rho d1 d2 e1 e2 cg HV) as (x & y & Es & F1 & F2 & P1 & P2 & C1 & C2).
  do 2 eexists. split; [reflexivity|]. cbn [l_results l_gamma l_cl]. split; [reflexivity|]. split; [reflexivity|].
  rewrite Es. split; [unfold inputs; cbn [l_v l_uinf l_rho l_delta l_eff]; rewrite Eu; reflexivity|].
  unfold assemble. cbn [r_inviscid r_viscous map].
  rewrite F2, F1, P1, P2, C1, C2.
  assert (Hfz : forall u F M, FZ (make_fm u F M) = vz F) by (intros; unfold make_fm; destruct (wind_axes u F) as [[? ?] ?]; reflexivity).
  assert (Hfx : forall u F M, FX (make_fm u F M) = vx F) by (intros; unfold make_fm; destruct (wind_axes u F) as [[? ?] ?]; reflexivity).
  rewrite Hfz, Hfx, !vsum_cons, !vsum_nil. cbn [vadd vscale vx vz vzero]. rnum. unfold Rdiv.
  assert (flyer_speed V <> 0) by (unfold flyer_speed; apply Rgt_not_eq, Rmult_lt_0_compat; [lra|apply sqrt_lt_R0; nra]).
  split; [ring|]. split; [field; auto|reflexivity].
Qed.

(** A straight flow and any controls. *)
Definition straight (V rho : R) : aero_state R := MkAero [("V_mag", V); ("rho", rho)]%string None.
Definition flyer_call (V rho : R) (c : option (dict R)) : solve_call R :=
  MkSolveCall vzero "linear" (Some (straight V rho)) c.
Lemma freestream_straight_back V : 0 < V -> freestream (T := R) V 0 0 = back V.
Proof.
  intros HV. unfold freestream. cbv zeta. assert (E : nrad (T := R) 0 = 0) by (rnum; unfold Rdiv; ring).
  rewrite E. rnum. rewrite sin_0, cos_0. replace (1 - 0 * 0 * 0 * 0) with 1 by ring. rewrite sqrt_1.
  apply vec_eq; cbn [back vx vy vz]; field.
Qed.
Lemma flyer_cd_degrees x : flyer_cd (degrees x) = 1 / 100 + 2 / 1000 * Rabs x.
Proof.
  pose proof PI_RGT_0. unfold flyer_cd, degrees.
  replace (x * PI / 180) with (x * (PI / 180)) by field. rewrite Rabs_mult, (Rabs_pos_eq (PI / 180)) by lra. field. lra.
Qed.
Lemma flyer_commanded c name y : commanded c (flyer_section name y) = entry c "elevator".
Proof. unfold commanded. cbn [flyer_section s_mix_a s_mix_e s_mix_r s_mix_f]. ring. Qed.

Lemma process_control_ok {T} {N : num_ops T} (g : grid T) c s : exists s', process_control g c s = (Ok tt, s').
Proof. unfold process_control. destruct (opt_truthy dtruthy c); eexists; reflexivity. Qed.

Lemma flyer_returns ls V rho c h : exact_solver ls -> 0 < V ->
  let e := Rabs (entry (acting flyer_grid h (flyer_call V rho c)) "elevator") in
  exists s' res, call_solve ls flyer_grid (flyer_call V rho c) (after ls flyer_grid h) = (Ok TheResultsDict, s') /\
    l_results s' = Some res /\ l_gamma s' = Some [flyer_gamma V; flyer_gamma V] /\
    l_v s' = [back V; back V] /\ l_uinf s' = V3 (-1) 0 0 /\ l_rho s' = [rho; rho] /\
    FZ (r_inviscid res) = - (8 * (rho * flyer_gamma V * V)) /\
    FX (r_viscous res) = - (2 * rho * V * V * V / flyer_speed V * (2 / 100 + 4 / 1000 * e)) /\
    l_cl s' = Some [6 * (flyer_alpha + 1 / 10); 6 * (flyer_alpha + 1 / 10)].
Proof.
  intros He HV e. set (k := flyer_call V rho c). set (s := after ls flyer_grid h).
  assert (Hg : given_aero (Some (straight V rho))) by (exists (straight V rho); split; auto; left; discriminate).
  assert (Hn : g_num flyer_grid = List.length (g_sections flyer_grid)) by reflexivity.
  pose proof (process_aero_base flyer_grid vzero (straight V rho) s Hn Hg) as P.
  change (base_flow (g_num flyer_grid) (straight V rho)) with
    (Ok (repeat (freestream V 0 0) 2, unit_of (freestream V 0 0), repeat rho 2)) in P.
  rewrite (freestream_straight_back V HV) in P.
  destruct P as (s1 & H1 & Ev & Eu & Er & Ed & Ee & _ & _).
  change (body_rates (an (straight V rho))) with (V3 0 0 0 : vec3 R) in Ev.
  cbn [repeat map2 g_sections flyer_grid] in Ev, Er. rewrite !at_section_0 in Ev.
  assert (Eu' : l_uinf s1 = V3 (-1) 0 0).
  { rewrite Eu. unfold unit_of. rewrite norm_back by auto. apply vec_eq; cbn [vdivs back vx vy vz]; rnum; field; lra. }
  destruct (process_control_ok flyer_grid c s1) as (s2 & H2).
  destruct (process_control_flow _ _ _ H2) as (F1 & F2 & F3 & _).
  pose proof (after_sized ls flyer_grid Hn h) as Hz. fold s in Hz.
  pose proof (process_aero_sized flyer_grid Hn vzero (Some (straight V rho)) s Hz) as Hz1. rewrite H1 in Hz1. cbn [snd] in Hz1.
  pose proof (process_control_sized flyer_grid c s1 Hz1) as Hz2. rewrite H2 in Hz2. cbn [snd] in Hz2.
  destruct Hz2 as (_ & _ & Z3 & Z4). cbn [g_sections flyer_grid List.length] in Z3, Z4.
  destruct (l_delta s2) as [|d1 [|d2 [|]]] eqn:Ed2; try discriminate.
  destruct (l_eff s2) as [|e1 [|e2 [|]]] eqn:Ee2; try discriminate.
  destruct (flyer_solves ls vzero (Some (straight V rho)) c s s1 s2 V rho d1 d2 e1 e2 He HV H1 H2)
    as (s' & res & K & R1 & R2 & R3 & R4 & R5 & R6); try congruence.
  exists s', res. refine (conj K (conj R1 (conj R2 _))).
  pose proof (acting_controls ls flyer_grid h k _ _ Hn K) as [Ca _].
  unfold inputs in R3.
  apply pair_equal_spec in R3; destruct R3 as [R3 G5]. apply pair_equal_spec in R3; destruct R3 as [R3 G4].
  apply pair_equal_spec in R3; destruct R3 as [R3 G3]. apply pair_equal_spec in R3; destruct R3 as [G1 G2].
  refine (conj _ (conj _ (conj _ (conj R4 (conj _ R6))))); try congruence.
  rewrite G4, Ed2 in Ca. cbn [flyer_grid g_sections map] in Ca. unfold sec_l, sec_r in Ca. rewrite !flyer_commanded in Ca.
  injection Ca as E1 E2. rewrite R5, E1, E2, flyer_cd_degrees. unfold e. unfold k. field.
  unfold flyer_speed. apply Rgt_not_eq, Rmult_lt_0_compat; [lra|apply sqrt_lt_R0; nra].
Qed.

(** Every section of the flyer is clear of the other one's vortex. *)
Lemma flyer_clear : clear_of_vortices (V3 (-1) 0 0) (g_sections flyer_grid).
Proof.
  assert (Hl : forall p a, vy p <> vy a -> off_half_line p a (V3 (-1) 0 0)).
  { intros p a H t _ E. apply H. rewrite E. cbn [vadd vscale vy]. rnum. ring. }
  assert (Hs : forall p a b, (forall t, 0 <= t <= 1 -> vy p <> vy a + t * (vy b - vy a)) -> off_segment p a b).
  { intros p a b H t Ht E. apply (H t Ht). rewrite E. unfold point_at. cbn [vadd vscale vsub vy]. rnum. ring. }
  intros i j si sj Hi Hj. cbn [flyer_grid g_sections] in Hi, Hj.
  destruct i as [|[|[|]]]; cbn [nth_error] in Hi; try discriminate;
  destruct j as [|[|[|]]]; cbn [nth_error] in Hj; try discriminate;
  injection Hi as <-; injection Hj as <-; unfold sec_l, sec_r, flyer_section; cbn [s_r s_r1 s_r2];
  (refine (conj _ (conj _ _)); [apply Hl; cbn [vy]; lra|apply Hl; cbn [vy]; lra|]);
  intros Hij; try congruence; apply Hs; cbn [vy]; intros t Ht; lra.
Qed.

(** The flyer solved without aero_state, after a head-on call of density [rho]. *)
Lemma flyer_omitted ls V rho h : exact_solver ls -> 0 < V ->
  exists s' res, ll_solve ls flyer_grid vzero "linear" None None (after ls flyer_grid (h ++ [flyer_call V rho None])) = (Ok TheResultsDict, s') /\
    l_results s' = Some res /\ FZ (r_inviscid res) = - (8 * (rho * flyer_gamma 10 * 10)).
Proof.
  intros He HV. destruct (flyer_returns ls V rho None h He HV) as (s & res0 & K & _ & _ & Ev & Eu & Er & _).
  rewrite after_app, K. cbn [snd].
  assert (Hn : g_num flyer_grid = List.length (g_sections flyer_grid)) by reflexivity.
  pose proof (after_sized ls flyer_grid Hn (h ++ [flyer_call V rho None])) as Hz. rewrite after_app, K in Hz. cbn [snd] in Hz.
  destruct (process_aero_ok flyer_grid vzero None s eq_refl) as (s1 & P1 & D1 & D2 & _).
  assert (E1 : l_v s1 = [back 10; back 10] /\ l_uinf s1 = V3 (-1) 0 0 /\ l_rho s1 = [rho; rho]).
  { unfold process_aero in P1. cbn [opt_truthy] in P1. injection P1 as <-. cbn [l_v l_uinf l_rho]. rewrite Ev, Eu, Er.
    refine (conj _ (conj _ eq_refl)); [|apply vec_eq; cbn [vx vy vz]; rnum; try lra; reflexivity].
    assert (Hb : V3 (nint (-10)) (vy (back V)) (vz (back V)) = back 10) by (apply vec_eq; cbn [back vx vy vz]; rnum; lra).
    transitivity (map (fun v : vec3 R => V3 (nint (-10)) (vy v) (vz v)) [back V; back V]); [reflexivity|]. cbn [map]. now rewrite Hb. }
  destruct E1 as (E1 & E2 & E3). destruct Hz as (_ & _ & Z3 & Z4). cbn [g_sections flyer_grid List.length] in Z3, Z4.
  destruct (l_delta s) as [|d1 [|d2 [|]]] eqn:Ed2; try discriminate.
  destruct (l_eff s) as [|e1 [|e2 [|]]] eqn:Ee2; try discriminate.
  destruct (flyer_solves ls vzero None None s s1 s1 10 rho d1 d2 e1 e2 He ltac:(lra) P1 eq_refl) as (s' & res & R0 & R1 & _ & _ & R4 & _); try congruence.
  exists s', res. auto.
Qed.
Lemma flyer_gamma_pos V : 0 < V -> 0 < flyer_gamma V.
Proof.
  intros HV. pose proof PI_RGT_0. unfold flyer_gamma, Rdiv.
  apply Rmult_lt_0_compat; [|apply Rinv_0_lt_compat; lra]. apply Rmult_lt_0_compat; auto. apply Rmult_lt_0_compat; lra.
Qed.
