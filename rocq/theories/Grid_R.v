(** Facts about the grid over the real numbers (proofs for C02-C07, C13-C15). *)
From Coq Require Import Reals String Bool Arith Lia Lra List.
From Verif Require Import Base Num RVec Geometry Grid Spec_Grid Grid_facts.
Import ListNotations.
Local Open Scope R_scope.

Lemma Rdec_half : Rdec 5 1 = 1 / 2.
Proof. unfold Rdec. simpl. lra. Qed.

(** *** Spacing *)

Lemma nat_INR_pos n : (0 < n)%nat -> 0 < IZR (Z.of_nat n).
Proof. intros. apply IZR_lt. lia. Qed.

Lemma lin_bounds n i : (0 < n)%nat -> (i <= n)%nat ->
  0 <= IZR (Z.of_nat i) / IZR (Z.of_nat n) <= 1.
Proof.
  intros Hn Hi. pose proof (nat_INR_pos n Hn).
  assert (IZR (Z.of_nat i) <= IZR (Z.of_nat n)) by (apply IZR_le; lia).
  pose proof (IZR_nat_nonneg i).
  split.
  - apply Rmult_le_pos; [lra|]. left; now apply Rinv_0_lt_compat.
  - apply (Rmult_le_reg_r (IZR (Z.of_nat n))); auto. unfold Rdiv.
    rewrite Rmult_assoc, Rinv_l by lra. lra.
Qed.

(** any spacing is a strictly increasing function of (index-offset)/n *)
Definition warp (cosine : bool) (x : R) : R :=
  if cosine then (1 - cos (PI * x)) / 2 else x.

Lemma spacing_warp cosine n off i : (0 < n)%nat ->
  spacing cosine n off i = warp cosine ((IZR (Z.of_nat i) - off) / IZR (Z.of_nat n)).
Proof.
  intros Hn. pose proof (nat_INR_pos n Hn). unfold spacing, warp, cosine_spacing, linear_spacing.
  destruct cosine; rnum; auto. rewrite Rdec_half.
  replace (PI / IZR (Z.of_nat n) * (IZR (Z.of_nat i) - off))
    with (PI * ((IZR (Z.of_nat i) - off) / IZR (Z.of_nat n))) by (field; lra). lra.
Qed.

Lemma warp_incr cosine x y : 0 <= x -> x < y -> y <= 1 -> warp cosine x < warp cosine y.
Proof.
  intros Hx Hxy Hy. unfold warp. destruct cosine; auto.
  assert (cos (PI * y) < cos (PI * x)); [|lra].
  pose proof PI_RGT_0. apply cos_decreasing_1; nra.
Qed.
Lemma warp_0 cosine : warp cosine 0 = 0.
Proof. unfold warp; destruct cosine; auto. rewrite Rmult_0_r, cos_0. lra. Qed.
Lemma warp_1 cosine : warp cosine 1 = 1.
Proof. unfold warp; destruct cosine; auto. rewrite Rmult_1_r, cos_PI. lra. Qed.
Lemma warp_sym cosine x : warp cosine (1 - x) = 1 - warp cosine x.
Proof.
  unfold warp; destruct cosine; auto.
  replace (PI * (1 - x)) with (PI - PI * x) by ring. rewrite Rtrigo_facts.cos_pi_minus. lra.
Qed.

Lemma sp1_warp cosine n i : (0 < n)%nat ->
  sp_1 cosine n i = warp cosine (IZR (Z.of_nat i) / IZR (Z.of_nat n)).
Proof.
  intros. unfold sp_1. rewrite spacing_warp by auto. rnum. f_equal. unfold Rdiv; f_equal. ring.
Qed.
Lemma sp2_warp cosine n i : (0 < n)%nat ->
  sp_2 cosine n i = warp cosine (IZR (Z.of_nat (S i)) / IZR (Z.of_nat n)).
Proof.
  intros. unfold sp_2. rewrite spacing_warp by auto. rnum. f_equal. unfold Rdiv; f_equal. ring.
Qed.
Lemma spcp_warp cosine n i : (0 < n)%nat ->
  sp_cp cosine n i = warp cosine ((IZR (Z.of_nat (S i)) - 1 / 2) / IZR (Z.of_nat n)).
Proof.
  intros. unfold sp_cp. rewrite spacing_warp by auto. rnum. rewrite Rdec_half. reflexivity.
Qed.

Lemma sp_order cosine n i : (i < n)%nat ->
  0 <= sp_1 cosine n i /\ sp_1 cosine n i < sp_cp cosine n i /\
  sp_cp cosine n i < sp_2 cosine n i /\ sp_2 cosine n i <= 1.
Proof.
  intros Hi. assert (Hn : (0 < n)%nat) by lia.
  pose proof (nat_INR_pos n Hn) as Hp.
  rewrite sp1_warp, sp2_warp, spcp_warp by auto.
  pose proof (lin_bounds n i Hn ltac:(lia)) as [H0 H1].
  pose proof (lin_bounds n (S i) Hn ltac:(lia)) as [H2 H3].
  assert (Hsi : IZR (Z.of_nat (S i)) = IZR (Z.of_nat i) + 1)
    by (rewrite Nat2Z.inj_succ; unfold Z.succ; rewrite plus_IZR; reflexivity).
  assert (Hinv : 0 < / IZR (Z.of_nat n)) by now apply Rinv_0_lt_compat.
  set (a := IZR (Z.of_nat i) / IZR (Z.of_nat n)) in *.
  set (c := IZR (Z.of_nat (S i)) / IZR (Z.of_nat n)) in *.
  set (b := (IZR (Z.of_nat (S i)) - 1 / 2) / IZR (Z.of_nat n)).
  assert (a < b /\ b < c) as [Hab Hbc].
  { unfold a, b, c, Rdiv; rewrite Hsi. nra. }
  repeat split.
  - destruct (Req_dec a 0) as [->|Hne]; [rewrite warp_0; lra|].
    left. rewrite <- (warp_0 cosine). apply warp_incr; lra.
  - apply warp_incr; lra.
  - apply warp_incr; lra.
  - destruct (Req_dec c 1) as [->|Hne]; [rewrite warp_1; lra|].
    left. rewrite <- (warp_1 cosine). apply warp_incr; lra.
Qed.

Lemma sp1_first cosine n : (0 < n)%nat -> sp_1 cosine n 0 = 0.
Proof. intros. rewrite sp1_warp by auto. simpl. unfold Rdiv; rewrite Rmult_0_l. apply warp_0. Qed.
Lemma sp2_last cosine n : (0 < n)%nat -> sp_2 cosine n (n - 1) = 1.
Proof.
  intros. rewrite sp2_warp by auto. replace (S (n - 1)) with n by lia.
  pose proof (nat_INR_pos n H). replace (IZR (Z.of_nat n) / IZR (Z.of_nat n)) with 1 by (field; lra).
  apply warp_1.
Qed.
Lemma sp_chain cosine n i : sp_2 cosine n i = sp_1 cosine n (S i).
Proof. reflexivity. Qed.

(** left/right symmetry of the spacing *)
Lemma IZR_sub_nat n i : (i <= n)%nat -> IZR (Z.of_nat (n - i)) = IZR (Z.of_nat n) - IZR (Z.of_nat i).
Proof. intros. rewrite Nat2Z.inj_sub by auto. now rewrite minus_IZR. Qed.

Lemma sp_sym cosine n i : (i < n)%nat ->
  sp_1 cosine n (n - 1 - i) = 1 - sp_2 cosine n i /\
  sp_2 cosine n (n - 1 - i) = 1 - sp_1 cosine n i /\
  sp_cp cosine n (n - 1 - i) = 1 - sp_cp cosine n i.
Proof.
  intros Hi. assert (Hn : (0 < n)%nat) by lia. pose proof (nat_INR_pos n Hn).
  rewrite !sp1_warp, !sp2_warp, !spcp_warp by auto. rewrite <- !warp_sym.
  replace (S (n - 1 - i)) with (n - i)%nat by lia.
  replace (n - 1 - i)%nat with (n - S i)%nat by lia.
  rewrite !IZR_sub_nat by lia.
  rewrite !Nat2Z.inj_succ; unfold Z.succ; rewrite !plus_IZR.
  repeat split; f_equal; field; lra.
Qed.

(** *** Points *)

Lemma segment_point_at L R' s : L <> R' -> segment_point L R' s = point_at L R' s.
Proof.
  intros H. unfold segment_point, point_at, unit_s.
  assert (Hn : 0 < vnorm (vsub R' L)).
  { apply vnorm_pos. intros E. apply H. destruct L, R'. vunf. injection E as ? ? ?.
    apply vec_eq; cbn; lra. }
  set (m := vnorm (vsub R' L)) in *. clearbody m.
  unfold vadd, vscale, vdivs; rnum. apply vec_eq; cbn [vx vy vz]; field; lra.
Qed.

Lemma point_at_0 L R' : point_at L R' 0 = L.
Proof. unfold point_at. vring. Qed.
Lemma point_at_1 L R' : point_at L R' 1 = R'.
Proof. unfold point_at. vring. Qed.
Lemma point_at_diff L R' s t :
  vsub (point_at L R' t) (point_at L R' s) = vscale (t - s) (vsub R' L).
Proof. unfold point_at. vring. Qed.

(** *** The vector from the left to the right tip of a segment *)
Definition seg_vec (s : segment R) : rv :=
  let t := sg_span s * sin (nrad (sg_sweep s)) / cos (nrad (sg_sweep s)) in
  let c := sg_span s * cos (nrad (sg_dihedral s)) in
  let d := sg_span s * sin (nrad (sg_dihedral s)) in
  match sg_side s with
  | SRight => V3 (- t) c (- d)
  | SLeft => V3 t c d
  end.

Lemma local_diff s : vsub (seg_local_right s) (seg_local_left s) = seg_vec s.
Proof.
  unfold seg_vec, seg_local_right, seg_local_left. destruct (sg_side s);
  vunf; apply vec_eq; cbn; ring.
Qed.

(** the parent's connection point, as seen from a position query *)
Lemma seg_position_shape {T} {N : num_ops T} f (pl : airplane T) s :
  exists P, seg_position (S f) pl s "left_tip" = (rlet p := P in Ok (vadd (seg_local_left s) p)) /\
            seg_position (S f) pl s "right_tip" = (rlet p := P in Ok (vadd (seg_local_right s) p)).
Proof.
  unfold seg_position; fold (@seg_position T N).
  eexists; split; simpl; reflexivity.
Qed.

Lemma tips_diff f pl s L R' :
  seg_position f pl s "left_tip" = Ok L -> seg_position f pl s "right_tip" = Ok R' ->
  vsub R' L = seg_vec s.
Proof.
  destruct f as [|f]; [discriminate|].
  destruct (seg_position_shape f pl s) as (P & -> & ->).
  destruct P as [p|]; simpl; [|discriminate].
  intros HL HR; inversion HL; inversion HR; subst.
  rewrite <- local_diff. vring.
Qed.

Lemma seg_vec_norm s : 0 < sg_span s -> 0 < cos (nrad (sg_sweep s)) ->
  vnorm (seg_vec s) = sg_span s / cos (nrad (sg_sweep s)).
Proof.
  intros Hs Hc. apply vnorm_eq.
  - left. apply Rmult_lt_0_compat; auto. now apply Rinv_0_lt_compat.
  - pose proof (sin2_cos2 (nrad (sg_sweep s))) as E1. unfold Rsqr in E1.
    pose proof (sin2_cos2 (nrad (sg_dihedral s))) as E2. unfold Rsqr in E2.
    unfold seg_vec. set (a := nrad (sg_sweep s)) in *. set (d := nrad (sg_dihedral s)) in *.
    transitivity ((sg_span s * sin a / cos a) * (sg_span s * sin a / cos a)
                  + sg_span s * sg_span s * (sin d * sin d + cos d * cos d)).
    + destruct (sg_side s); vunf; ring.
    + rewrite E2. transitivity (sg_span s * sg_span s * (sin a * sin a + cos a * cos a) / (cos a * cos a)).
      * field; lra.
      * rewrite E1. field; lra.
Qed.

Lemma tips_distinct f pl s L R' :
  0 < sg_span s ->
  seg_position f pl s "left_tip" = Ok L -> seg_position f pl s "right_tip" = Ok R' -> L <> R'.
Proof.
  intros Hs HL HR E. pose proof (tips_diff _ _ _ _ _ HL HR) as H. subst.
  assert (H1 : vy (seg_vec s) = 0 /\ vz (seg_vec s) = 0)
    by (rewrite <- H; split; vunf; ring).
  pose proof (sin2_cos2 (nrad (sg_dihedral s))) as E2. unfold Rsqr in E2.
  unfold seg_vec in H1. destruct (sg_side s); cbn in H1; destruct H1 as [H1 H2];
  rnum;
  (apply Rmult_integral in H1; destruct H1 as [?|H1]; [lra|]);
  [|apply Ropp_eq_0_compat in H2; rewrite Ropp_involutive in H2];
  (apply Rmult_integral in H2; destruct H2 as [?|H2]; [lra|]); nra.
Qed.

(** *** Projections of make_section *)
Section Proj.
  Context {T : Type} {N : num_ops T}.
  Variables (cosine : bool) (sg : segment T) (L R' : vec3 T) (i : nat).
  Let n := sg_num sg.
  Let ms := make_section cosine sg L R' i.
  Ltac go := unfold ms, make_section;
    destruct (sg_side sg); cbn [lr_of_side fst snd];
    destruct (section_control sg _) as [[? ?] [[[? ?] ?] ?]]; reflexivity.
  Lemma ms_sp : s_sp ms = sp_cp cosine n i. Proof. go. Qed.
  Lemma ms_sp1 : s_sp1 ms = sp_1 cosine n i. Proof. go. Qed.
  Lemma ms_sp2 : s_sp2 ms = sp_2 cosine n i. Proof. go. Qed.
  Lemma ms_r : s_r ms = segment_point L R' (sp_cp cosine n i). Proof. go. Qed.
  Lemma ms_r1 : s_r1 ms = segment_point L R' (sp_1 cosine n i). Proof. go. Qed.
  Lemma ms_r2 : s_r2 ms = segment_point L R' (sp_2 cosine n i). Proof. go. Qed.
  Definition chord_l := match sg_side sg with SLeft => sg_tip_chord sg | SRight => sg_root_chord sg end.
  Definition chord_r := match sg_side sg with SLeft => sg_root_chord sg | SRight => sg_tip_chord sg end.
  Lemma ms_c : s_c ms = interp chord_l chord_r (sp_cp cosine n i). Proof. unfold chord_l, chord_r; go. Qed.
  Lemma ms_c1 : s_c1 ms = interp chord_l chord_r (sp_1 cosine n i). Proof. unfold chord_l, chord_r; go. Qed.
  Lemma ms_c2 : s_c2 ms = interp chord_l chord_r (sp_2 cosine n i). Proof. unfold chord_l, chord_r; go. Qed.
  Lemma ms_dS : s_dS ms = section_area (sg_sweep sg) (s_r1 ms) (s_r2 ms) (s_c1 ms) (s_c2 ms).
  Proof. go. Qed.
  Definition wash_at : T :=
    match sg_side sg with
    | SLeft => interp (sg_washout sg) n0 (sp_cp cosine n i)
    | SRight => interp n0 (sg_washout sg) (sp_cp cosine n i)
    end.
  Lemma ms_washout : s_washout ms = wash_at. Proof. unfold wash_at; go. Qed.
  Lemma ms_frame : (s_ua ms, s_un ms, s_us ms)
                   = unit_vectors (sg_side sg) (sg_mount sg) wash_at (sg_dihedral sg).
  Proof.
    unfold ms, make_section, wash_at.
    destruct (sg_side sg) eqn:E; cbn [lr_of_side fst snd];
    destruct (section_control sg _) as [[? ?] [[[? ?] ?] ?]]; reflexivity.
  Qed.
  Lemma ms_control : (s_flap_eff ms, s_cmd ms, (s_mix_a ms, s_mix_e ms, s_mix_r ms, s_mix_f ms))
                     = section_control sg (sp_cp cosine n i).
  Proof.
    unfold ms, make_section.
    destruct (sg_side sg); cbn [lr_of_side fst snd]; unfold n;
    destruct (section_control sg _) as [[? ?] [[[? ?] ?] ?]]; reflexivity.
  Qed.
  Definition af_l := match sg_side sg with SLeft => sg_tip_af sg | SRight => sg_root_af sg end.
  Definition af_r := match sg_side sg with SLeft => sg_root_af sg | SRight => sg_tip_af sg end.
  Lemma ms_coef :
    let coef f := interp_tri (f af_l) (f af_r) (sp_cp cosine n i) in
    s_cla ms = coef (@af_CL_alpha T) /\ s_al0 ms = coef (@af_alpha_L0 T) /\
    s_cma ms = coef (@af_Cm_alpha T) /\ s_cml0 ms = coef (@af_Cm_L0 T) /\
    s_cd0 ms = coef (@af_CD_0 T) /\ s_cd1 ms = coef (@af_CD_L T) /\
    s_cd2 ms = coef (@af_CD_L2 T) /\ s_clmax ms = coef (@af_CL_max T).
  Proof.
    unfold ms, make_section, af_l, af_r.
    destruct (sg_side sg); cbn [lr_of_side fst snd];
    destruct (section_control sg _) as [[? ?] [[[? ?] ?] ?]]; repeat split; reflexivity.
  Qed.
  Lemma ms_angles : s_mount ms = sg_mount sg /\ s_dihedral ms = sg_dihedral sg /\ s_sweep ms = sg_sweep sg.
  Proof.
    unfold ms, make_section.
    destruct (sg_side sg); cbn [lr_of_side fst snd];
    destruct (section_control sg _) as [[? ?] [[[? ?] ?] ?]]; repeat split; reflexivity.
  Qed.
End Proj.
