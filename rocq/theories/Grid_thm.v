(** Proofs of the grid properties over the real numbers. *)
From Coq Require Import Reals String Bool Arith Lia Lra Nsatz List.
From Verif Require Import Base Num RVec Geometry Grid Spec_Grid Grid_facts Grid_R.
Import ListNotations.
Local Open Scope R_scope.

Lemma nth_error_seq_map {A} (f : nat -> A) a n i :
  nth_error (map f (seq a n)) i = if (i <? n)%nat then Some (f (a + i)%nat) else None.
Proof.
  revert a i. induction n as [|n IH]; intros a i; simpl.
  - destruct i; reflexivity.
  - destruct i as [|i]; simpl; [now rewrite Nat.add_0_r|].
    rewrite IH. replace (S a + i)%nat with (a + S i)%nat by lia. reflexivity.
Qed.

Section Block.
  Variables (cosine : bool) (pl : airplane R) (sg : segment R) (b : list (section R)).
  Hypothesis Hb : segment_block cosine pl sg = Ok b.

  Lemma block_inv :
    exists L R', seg_position (position_fuel pl) pl sg "left_tip" = Ok L /\
                 seg_position (position_fuel pl) pl sg "right_tip" = Ok R' /\
                 map set_ic2 b = map (fun i => set_ic2 (make_section cosine sg L R' i)) (seq 0 (sg_num sg)).
  Proof.
    destruct (segment_block_inv _ _ _ Hb) as (_ & L & R' & HL & HR & _ & ->).
    exists L, R'. rewrite map_map. auto.
  Qed.
End Block.

Lemma partitions_block cosine sg L R' :
  (0 < sg_num sg)%nat -> L <> R' ->
  partitions L R' (map (fun i => set_ic2 (make_section cosine sg L R' i)) (seq 0 (sg_num sg))).
Proof.
  intros Hn HLR. set (n := sg_num sg).
  split.
  - intros s. rewrite nth_error_seq_map. destruct (Nat.ltb_spec 0 n); [|intros; discriminate].
    intros E; inversion E; subst s; clear E. cbn [set_ic2 s_r1 s_sp1 Nat.add].
    rewrite ms_r1, ms_sp1. fold n. rewrite sp1_first by auto.
    rewrite segment_point_at, point_at_0; auto.
  - intros s. rewrite map_length, seq_length, nth_error_seq_map.
    destruct (Nat.ltb_spec (n - 1) n); [|intros; discriminate].
    intros E; inversion E; subst s; clear E. cbn [set_ic2 s_r2 s_sp2 Nat.add].
    rewrite ms_r2, ms_sp2. fold n. rewrite sp2_last by auto.
    rewrite segment_point_at, point_at_1; auto.
  - intros i s s'. rewrite !nth_error_seq_map.
    destruct (Nat.ltb_spec i n); [|intros; discriminate].
    destruct (Nat.ltb_spec (S i) n); [|intros; discriminate].
    intros E E'; inversion E; inversion E'; subst s s'; clear E E'.
    cbn [set_ic2 s_r2 s_r1 s_sp1 s_sp2 Nat.add].
    rewrite ms_r2, ms_r1, ms_sp2, ms_sp1. rewrite sp_chain. auto.
  - intros s Hs. apply in_map_iff in Hs. destruct Hs as (i & <- & Hi). apply in_seq in Hi.
    cbn [set_ic2 s_r s_r2 s_r1 s_sp s_sp1 s_sp2].
    rewrite ms_r, ms_r2, ms_r1, ms_sp, ms_sp2, ms_sp1.
    rewrite !segment_point_at by auto. fold n.
    split; [apply sp_order; unfold n; lia|auto].
Qed.

(** C03 *)
Lemma total_nsum {A} (f : A -> R) l : total f l = nsum (map f l).
Proof. induction l; simpl; auto. rewrite nsum_cons. now rewrite <- IHl. Qed.

Lemma section_dS_eq cosine sg L R' i :
  0 < sg_span sg -> 0 < cos (nrad (sg_sweep sg)) -> L <> R' -> vsub R' L = seg_vec sg ->
  (i < sg_num sg)%nat ->
  s_dS (make_section cosine sg L R' i) =
  sg_span sg * (sp_2 cosine (sg_num sg) i - sp_1 cosine (sg_num sg) i)
  * (interp (chord_l sg) (chord_r sg) (sp_1 cosine (sg_num sg) i)
     + interp (chord_l sg) (chord_r sg) (sp_2 cosine (sg_num sg) i)) / 2.
Proof.
  intros Hs Hc HLR Hvec Hi.
  rewrite ms_dS, ms_r1, ms_r2, ms_c1, ms_c2. rewrite !segment_point_at by auto.
  unfold section_area. rewrite point_at_diff, Hvec, vnorm_scale, seg_vec_norm by auto.
  pose proof (sp_order cosine (sg_num sg) i Hi) as (H0 & H1 & H2 & H3).
  rewrite Rabs_pos_eq by lra. rnum. field. lra.
Qed.

Lemma block_area cosine pl sg b :
  segment_block cosine pl sg = Ok b -> (0 < sg_num sg)%nat ->
  0 < sg_span sg -> 0 < cos (nrad (sg_sweep sg)) ->
  nsum (map (@s_dS R) b) = trapezoid_area (sg_span sg) (sg_root_chord sg) (sg_tip_chord sg).
Proof.
  intros Hb Hn Hs Hc.
  destruct (segment_block_inv _ _ _ Hb) as (_ & L & R' & HL & HR & _ & ->).
  pose proof (tips_distinct _ _ _ _ _ Hs HL HR) as HLR.
  pose proof (tips_diff _ _ _ _ _ HL HR) as Hvec.
  rewrite map_map.
  set (a := chord_l sg). set (c := chord_r sg).
  rewrite (nsum_telescope
             (fun i => sg_span sg * (a * sp_1 cosine (sg_num sg) i
                       + (c - a) * (sp_1 cosine (sg_num sg) i * sp_1 cosine (sg_num sg) i) / 2))).
  - simpl Nat.add.
    assert (E : sp_1 cosine (sg_num sg) (sg_num sg) = 1).
    { replace (sp_1 cosine (sg_num sg) (sg_num sg)) with (sp_2 cosine (sg_num sg) (sg_num sg - 1)).
      - now apply sp2_last.
      - rewrite sp_chain. f_equal. lia. }
    rewrite E, sp1_first by auto. unfold trapezoid_area, a, c, chord_l, chord_r.
    destruct (sg_side sg); field.
  - intros i Hi. rewrite section_dS_eq by (auto; lia). rewrite sp_chain.
    unfold interp; rnum. fold a c. field.
Qed.

(** C04 *)
Lemma unit_vectors_us side m w d :
  let '(ua, un, us) := unit_vectors side m w d in
  us = match side with
       | SRight => V3 0 (- cos (nrad d)) (sin (nrad d))
       | SLeft => V3 0 (- cos (nrad d)) (- sin (nrad d))
       end.
Proof.
  pose proof (sin2_cos2 (nrad (m - w))) as E1. unfold Rsqr in E1.
  unfold unit_vectors. change (nsub m w) with (m - w).
  set (t := nrad (m - w)) in *. set (e := nrad d). clearbody t e.
  destruct side; vunf; apply vec_eq; cbn.
  - ring.
  - transitivity (- cos e * (sin t * sin t + cos t * cos t)); [ring|]. rewrite E1. ring.
  - transitivity (- sin e * (sin t * sin t + cos t * cos t)); [ring|]. rewrite E1. ring.
  - ring.
  - transitivity (- cos e * (sin t * sin t + cos t * cos t)); [ring|]. rewrite E1. ring.
  - transitivity (sin e * (sin t * sin t + cos t * cos t)); [ring|]. rewrite E1. ring.
Qed.

Lemma ms_us cosine sg L R' i :
  s_us (make_section cosine sg L R' i) =
  match sg_side sg with
  | SRight => V3 0 (- cos (nrad (sg_dihedral sg))) (sin (nrad (sg_dihedral sg)))
  | SLeft => V3 0 (- cos (nrad (sg_dihedral sg))) (- sin (nrad (sg_dihedral sg)))
  end.
Proof.
  pose proof (ms_frame cosine sg L R' i) as H.
  pose proof (unit_vectors_us (sg_side sg) (sg_mount sg) (wash_at cosine sg i) (sg_dihedral sg)) as Hu.
  rewrite <- H in Hu. exact Hu.
Qed.

Lemma us_dot_vec cosine sg L R' i :
  vdot (s_us (make_section cosine sg L R' i)) (seg_vec sg) = - sg_span sg.
Proof.
  rewrite ms_us. pose proof (sin2_cos2 (nrad (sg_dihedral sg))) as E. unfold Rsqr in E.
  unfold seg_vec. set (e := nrad (sg_dihedral sg)) in *.
  transitivity (- sg_span sg * (sin e * sin e + cos e * cos e)); [|rewrite E; ring].
  destruct (sg_side sg); vunf; ring.
Qed.

Lemma block_chord2 cosine pl sg b :
  segment_block cosine pl sg = Ok b -> (0 < sg_num sg)%nat -> 0 < sg_span sg ->
  nsum (map (@s_ic2 R) (map set_ic2 b))
  = trapezoid_chord2 (sg_span sg) (sg_root_chord sg) (sg_tip_chord sg).
Proof.
  intros Hb Hn Hs.
  destruct (segment_block_inv _ _ _ Hb) as (_ & L & R' & HL & HR & _ & ->).
  pose proof (tips_distinct _ _ _ _ _ Hs HL HR) as HLR.
  pose proof (tips_diff _ _ _ _ _ HL HR) as Hvec.
  rewrite !map_map. cbn [set_ic2 s_ic2].
  set (a := chord_l sg). set (c := chord_r sg).
  pose (F := fun s => sg_span sg * (a * a * s + a * (c - a) * (s * s) + (c - a) * (c - a) * (s * s * s) / 3)).
  rewrite (nsum_telescope (fun i => F (sp_1 cosine (sg_num sg) i))).
  - simpl Nat.add.
    assert (E : sp_1 cosine (sg_num sg) (sg_num sg) = 1).
    { replace (sp_1 cosine (sg_num sg) (sg_num sg)) with (sp_2 cosine (sg_num sg) (sg_num sg - 1)).
      - now apply sp2_last.
      - rewrite sp_chain. f_equal. lia. }
    rewrite E, sp1_first by auto. unfold F, trapezoid_chord2, a, c, chord_l, chord_r.
    destruct (sg_side sg); field.
  - intros i Hi. unfold integral_chord2.
    rewrite ms_r1, ms_r2, ms_c1, ms_c2. rewrite !segment_point_at by auto.
    rewrite point_at_diff, Hvec, vdot_scale_r, us_dot_vec.
    pose proof (sp_order cosine (sg_num sg) i ltac:(lia)) as (H0 & H1 & H2 & H3).
    rewrite <- sp_chain. fold a c. unfold interp.
    set (x := sp_1 cosine (sg_num sg) i) in *. set (y := sp_2 cosine (sg_num sg) i) in *.
    rnum. rewrite Rabs_left by nra. unfold F. field.
Qed.

(** C05 *)
Lemma unit_vectors_orthonormal side m w d :
  let '(ua, un, us) := unit_vectors side m w d in orthonormal_frame ua un us.
Proof.
  pose proof (sin2_cos2 (nrad (m - w))) as E1. unfold Rsqr in E1.
  pose proof (sin2_cos2 (nrad d)) as E2. unfold Rsqr in E2.
  unfold unit_vectors. change (nsub m w) with (m - w).
  set (t := nrad (m - w)) in *. set (e := nrad d) in *. clearbody t e.
  change (nsin t) with (sin t). change (ncos t) with (cos t).
  change (nsin e) with (sin e). change (ncos e) with (cos e).
  generalize dependent (sin t); intros st. generalize dependent (cos t); intros ct E1.
  generalize dependent (sin e); intros sd. generalize dependent (cos e); intros cd E2.
  destruct side; split; try reflexivity; vunf; cbn; nsatz.
Qed.

(** C07 *)
Lemma ref_area_fold cosine pl segs blocks acc :
  Forall2 (fun sg b => segment_block cosine pl sg = Ok b) segs blocks ->
  (forall sg, In sg segs -> sg_is_main sg = true ->
     (0 < sg_num sg)%nat /\ 0 < sg_span sg /\ 0 < cos (nrad (sg_sweep sg))) ->
  fold_left (fun a p => add_ref_area (fst p) (snd p) a) (combine segs blocks) acc
  = acc + total (fun sg => trapezoid_area (sg_span sg) (sg_root_chord sg) (sg_tip_chord sg))
                (filter (@sg_is_main R) segs).
Proof.
  intros HF. revert acc. induction HF as [|sg b segs blocks Hb HF IH]; intros acc H; simpl; [ring|].
  rewrite IH by (intros; apply H; simpl; auto). unfold add_ref_area. simpl.
  destruct (sg_is_main sg) eqn:E; simpl; [|reflexivity].
  destruct (H sg (or_introl eq_refl) E) as (Hn & Hs & Hc).
  rewrite (block_area _ _ _ _ Hb) by auto. rnum. ring.
Qed.

(** C13 *)
Lemma mix_signed (c : control_surface R) side :
  let m := cs_get_mix c side in
  dgetd m "aileron" n0 = side_sign side * mix_of c "aileron" /\
  dgetd m "elevator" n0 = mix_of c "elevator" /\
  dgetd m "rudder" n0 = side_sign side * mix_of c "rudder" /\
  dgetd m "flap" n0 = mix_of c "flap".
Proof.
  unfold cs_get_mix, mix_of, dgetd, side_sign.
  destruct (dget (cs_mix c) "aileron"), (dget (cs_mix c) "elevator"),
           (dget (cs_mix c) "rudder"), (dget (cs_mix c) "flap"); destruct side; cbn;
  repeat split; rnum; try ring.
Qed.

Lemma Rdec_8 : Rdec 8 1 = 8 / 10.
Proof. reflexivity. Qed.

Lemma eta_hinge_spec cf : eta_hinge cf = hinge_efficiency cf.
Proof.
  unfold eta_hinge, hinge_efficiency. rnum. unfold Rdec.
  replace (10 ^ 4)%Z with 10000%Z by reflexivity. replace (10 ^ 6)%Z with 1000000%Z by reflexivity.
  replace (10 ^ 5)%Z with 100000%Z by reflexivity. reflexivity.
Qed.
Lemma eps_flap_spec cf : eps_flap cf = ideal_effectiveness cf.
Proof. reflexivity. Qed.
Lemma cm_delta_spec cf : cm_delta cf = flap_moment_slope cf.
Proof. reflexivity. Qed.

Lemma section_control_spec (sg : segment R) s :
  let c := sg_control sg in
  let t := from_root (sg_side sg) s in
  cs_span_tip c - cs_span_root c <> 0 ->
  (covered c t ->
   section_control sg s =
   ((if cs_sealed c then 1 else 8 / 10) * hinge_efficiency (flap_chord c t)
       * ideal_effectiveness (flap_chord c t),
    flap_moment_slope (flap_chord c t),
    (side_sign (sg_side sg) * mix_of c "aileron", mix_of c "elevator",
     side_sign (sg_side sg) * mix_of c "rudder", mix_of c "flap"))) /\
  (~ covered c t -> section_control sg s = (0, 0, (0, 0, 0, 0))).
Proof.
  intros c t Hne. unfold section_control, seg_control_span, seg_control_chord, seg_control_mix.
  fold c.
  destruct (mix_signed c (sg_side sg)) as (Ma & Me & Mr & Mf).
  rewrite Ma, Me, Mr, Mf.
  unfold t, from_root, side_sign in *. destruct (sg_side sg); unfold ngtb; rnum.
  - set (cf := (s - (1 - cs_span_tip c)) * _ + _).
    assert (Ecf : cf = flap_chord c (1 - s)).
    { unfold cf, flap_chord, between. field. lra. }
    rewrite Ecf. rewrite eta_hinge_spec, eps_flap_spec, cm_delta_spec.
    unfold covered. split; intros H.
    + replace (Rltb (1 - cs_span_tip c) s && Rltb s (1 - cs_span_root c)) with true.
      * rewrite Rdec_8. destruct (cs_sealed c); repeat apply (f_equal2 pair); try reflexivity; ring.
      * symmetry. apply andb_true_intro. split; apply Rltb_true; lra.
    + destruct (Rltb (1 - cs_span_tip c) s && Rltb s (1 - cs_span_root c)) eqn:E; auto.
      exfalso. apply H. apply andb_prop in E. destruct E as [E1 E2].
      apply Rltb_true in E1. apply Rltb_true in E2. lra.
  - set (cf := (s - cs_span_root c) * _ + _).
    assert (Ecf : cf = flap_chord c s).
    { unfold cf, flap_chord, between. field. lra. }
    rewrite Ecf. rewrite eta_hinge_spec, eps_flap_spec, cm_delta_spec.
    unfold covered. split; intros H.
    + replace (Rltb (cs_span_root c) s && Rltb s (cs_span_tip c)) with true.
      * rewrite Rdec_8. destruct (cs_sealed c); repeat apply (f_equal2 pair); try reflexivity; ring.
      * symmetry. apply andb_true_intro. split; apply Rltb_true; lra.
    + destruct (Rltb (cs_span_root c) s && Rltb s (cs_span_tip c)) eqn:E; auto.
      exfalso. apply H. apply andb_prop in E. destruct E as [E1 E2].
      apply Rltb_true in E1. apply Rltb_true in E2. lra.
Qed.

Lemma acos_m1 : acos (-1) = PI.
Proof.
  pose proof (acos_opp 1). rewrite acos_1 in H. replace (-1) with (- (1)) by ring. lra.
Qed.
Lemma zero_chord_ineffective : ideal_effectiveness 0 = 0 /\ flap_moment_slope 0 = 0.
Proof.
  unfold ideal_effectiveness, flap_moment_slope, hinge_angle.
  replace (2 * 0 - 1) with (-1) by ring. rewrite acos_m1, sin_PI, sin_2PI.
  pose proof PI_RGT_0. split; field. lra.
Qed.

(** The sections of a segment's block, seen from the grid. *)
Lemma block_section cosine pl g k sg s :
  make_grid cosine pl = Ok g -> nth_error (wingsegments pl) k = Some sg -> In s (block_of g k) ->
  exists L R' i, (i < sg_num sg)%nat /\ s = set_ic2 (make_section cosine sg L R' i) /\
     seg_position (position_fuel pl) pl sg "left_tip" = Ok L /\
     seg_position (position_fuel pl) pl sg "right_tip" = Ok R' /\
     cs_span_tip (sg_control sg) - cs_span_root (sg_control sg) <> 0.
Proof.
  intros Hg Hk Hs. destruct (block_of_spec _ _ _ Hg Hk) as (b & Hb & E).
  destruct (segment_block_inv _ _ _ Hb) as (_ & L & R' & HL & HR & Hne & ->).
  rewrite E, map_map in Hs. apply in_map_iff in Hs. destruct Hs as (i & <- & Hi).
  apply in_seq in Hi. exists L, R', i. repeat split; auto; try lia.
  apply Reqb_false in Hne. unfold seg_control_span in Hne. destruct (sg_side sg); simpl in Hne; rnum; lra.
Qed.
