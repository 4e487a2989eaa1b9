(** Proof that the left segment of a symmetric wing mirrors the right one (C06). *)
From Coq Require Import Reals String Bool Arith Lia Lra List.
From Verif Require Import Base Num RVec Geometry Api Grid Spec_Grid Spec_Geom Grid_facts Grid_R Grid_thm.
Import ListNotations.
Local Open Scope R_scope.

Definition res_mirror (a b : res rv) : Prop :=
  match a, b with
  | Ok p, Ok q => q = mirror p
  | Err e, Err e' => e = e'
  | _, _ => False
  end.

Definition pair_mirror (f : nat) (pl : airplane R) (l r : segment R) : Prop :=
  res_mirror (seg_position f pl r "right_tip") (seg_position f pl l "left_tip") /\
  res_mirror (seg_position f pl r "left_tip") (seg_position f pl l "right_tip").

Lemma mirror_add (a b : rv) : mirror (vadd a b) = vadd (mirror a) (mirror b).
Proof. unfold mirror; vring. Qed.
Lemma mirror_sub (a b : rv) : mirror (vsub a b) = vsub (mirror a) (mirror b).
Proof. unfold mirror; vring. Qed.
Lemma mirror_scale k (a : rv) : mirror (vscale k a) = vscale k (mirror a).
Proof. unfold mirror; vring. Qed.
Lemma mirror_dot (a b : rv) : vdot (mirror a) (mirror b) = vdot a b.
Proof. unfold mirror; vring. Qed.
Lemma mirror_norm (a : rv) : vnorm (mirror a) = vnorm a.
Proof. unfold vnorm. now rewrite mirror_dot. Qed.
Lemma mirror_cross (a b : rv) : vcross (mirror a) (mirror b) = vopp (mirror (vcross a b)).
Proof. unfold mirror; vring. Qed.
Lemma mirror_mirror (a : rv) : mirror (mirror a) = a.
Proof. unfold mirror; vring. Qed.
Lemma mirror_point L R' t : mirror (point_at L R' t) = point_at (mirror L) (mirror R') t.
Proof. unfold point_at. now rewrite mirror_add, mirror_scale, mirror_sub. Qed.
Lemma point_at_rev L R' t : point_at L R' (1 - t) = point_at R' L t.
Proof. unfold point_at; vring. Qed.
Lemma mirror_fix (a : rv) : vy a = 0 -> mirror a = a.
Proof. unfold mirror; intros H. destruct a; simpl in *; subst. f_equal. ring. Qed.

Lemma local_mirror_l (r : segment R) n at_ : sg_side r = SRight -> vy (sg_delta r) = 0 ->
  seg_local_left (left_twin_of r n at_) = mirror (seg_local_right r).
Proof.
  intros Hs Hy. unfold seg_local_left, seg_local_right, mirror. simpl. rewrite Hs, Hy. rnum. simpl.
  apply vec_eq; cbn; ring.
Qed.
Lemma local_mirror_r (r : segment R) n at_ : sg_side r = SRight -> vy (sg_delta r) = 0 ->
  seg_local_right (left_twin_of r n at_) = mirror (seg_local_left r).
Proof.
  intros Hs Hy. unfold seg_local_left, seg_local_right, mirror. simpl. rewrite Hs, Hy. rnum. simpl.
  apply vec_eq; cbn; ring.
Qed.

Lemma seg_position_S {T} {N : num_ops T} f (pl : airplane T) s at_ :
  seg_position (S f) pl s at_ =
        let parent_pos :=
          match sg_parent s with
          | PNone => Ok vzero
          | PAirplane => Ok (airplane_position pl)
          | PWing id =>
              match nth_error (a_store pl) id with
              | None => Err AttributeError
              | Some w =>
                  if String.eqb (sg_connect_at s) "left_tip" then
                    match w_left w with
                    | Some q => seg_position f pl q (sg_connect_at s)
                    | None => Err AttributeError
                    end
                  else if String.eqb (sg_connect_at s) "right_tip" then
                    match w_right w with
                    | Some q => seg_position f pl q (sg_connect_at s)
                    | None => Err AttributeError
                    end
                  else Err RuntimeError
              end
          end in
        if String.eqb at_ "left_tip" then
          rlet p := parent_pos in Ok (vadd (seg_local_left s) p)
        else if String.eqb at_ "right_tip" then
          rlet p := parent_pos in Ok (vadd (seg_local_right s) p)
        else Err RuntimeError.
Proof. reflexivity. Qed.

(** The connection points of the parents mirror each other => so do the tips. *)
Lemma pair_from_parent f pl r nm at_ Pl Pr :
  sg_side r = SRight -> vy (sg_delta r) = 0 ->
  (forall a, seg_position (S f) pl r a =
     if String.eqb a "left_tip" then (rlet p := Pr in Ok (vadd (seg_local_left r) p))
     else if String.eqb a "right_tip" then (rlet p := Pr in Ok (vadd (seg_local_right r) p))
     else Err RuntimeError) ->
  (forall a, seg_position (S f) pl (left_twin_of r nm at_) a =
     if String.eqb a "left_tip" then (rlet p := Pl in Ok (vadd (seg_local_left (left_twin_of r nm at_)) p))
     else if String.eqb a "right_tip" then (rlet p := Pl in Ok (vadd (seg_local_right (left_twin_of r nm at_)) p))
     else Err RuntimeError) ->
  res_mirror Pr Pl ->
  pair_mirror (S f) pl (left_twin_of r nm at_) r.
Proof.
  intros Hs Hy Er El HP. unfold pair_mirror. rewrite !Er, !El. simpl.
  destruct Pr as [p|], Pl as [q|]; simpl in HP |- *; try contradiction; auto.
  subst q. rewrite local_mirror_l, local_mirror_r by auto. rewrite !mirror_add. auto.
Qed.

Lemma symmetric_pair pl w : Forall (@wing_ok R) (a_store pl) -> wing_ok w -> symmetric_wing pl w ->
  exists l r, w_left w = Some l /\ w_right w = Some r /\ sg_side r = SRight /\ vy (sg_delta r) = 0 /\
              l = left_twin_of r (sg_name l) (sg_connect_at l) /\
              forall f, pair_mirror f pl l r.
Proof.
  intros Hst Hok Hsym. revert Hok.
  induction Hsym as [w Hside Hsegs|w id p Hside Hsegs Hid Hsym IH]; intros Hok;
  unfold wing_ok in Hok; rewrite Hside in Hok;
  destruct Hok as (l & r & Hl & Hr & Hsr & Hnl & Hnr & Htw & Hcon);
  exists l, r;
  assert (Hinr : In r (wing_segments w)) by (unfold wing_segments; rewrite Hside, Hl, Hr; simpl; auto);
  destruct (Hsegs r Hinr) as [Hy Hpar]; refine (conj Hl (conj Hr (conj Hsr (conj Hy (conj Htw _))))); intros f.
  - destruct f as [|f]; [split; reflexivity|].
    rewrite Htw. destruct Hpar as [Hp|[Hp Hpos]].
    + eapply pair_from_parent; auto; try (intros a; rewrite seg_position_S; cbn [sg_parent left_twin_of]; rewrite Hp; reflexivity).
      simpl. symmetry. now apply mirror_fix.
    + eapply pair_from_parent; auto; try (intros a; rewrite seg_position_S; cbn [sg_parent left_twin_of]; rewrite Hp; reflexivity).
      simpl. symmetry. now apply mirror_fix.
  - destruct f as [|f]; [split; reflexivity|].
    rewrite Htw. destruct Hcon as [[Hp _]|(at_ & Hal & Har)]; [congruence|].
    assert (Hokp : wing_ok p).
    { rewrite Forall_forall in Hst. apply Hst. eapply nth_error_In; eauto. }
    destruct (IH Hokp) as (lp & rp & Hlp & Hrp & _ & _ & _ & Hpair).
    destruct (Hpair f) as [HA HB].
    eapply pair_from_parent; auto;
      try (intros a; rewrite seg_position_S; cbn [sg_parent sg_connect_at left_twin_of]; rewrite Hpar, Hid;
           rewrite ?Hal, ?Har; reflexivity).
    rewrite Hlp, Hrp. simpl. destruct (String.eqb_spec at_ "tip") as [->|]; simpl; auto.
Qed.

(** Section by section. *)
Lemma control_mirror (r : segment R) nm at_ s :
  sg_side r = SRight -> cs_span_tip (sg_control r) - cs_span_root (sg_control r) <> 0 ->
  section_control (left_twin_of r nm at_) s =
  let '(fe, cmd, (a, e, ru, fl)) := section_control r (1 - s) in (fe, cmd, (- a, e, - ru, fl)).
Proof.
  intros Hs Hne. unfold section_control.
  assert (Em : seg_control_mix (left_twin_of r nm at_)
               = let '(a, e, ru, fl) := seg_control_mix r in (- a, e, - ru, fl)).
  { unfold seg_control_mix, cs_get_mix. cbn [sg_control sg_side left_twin_of]. rewrite Hs.
    destruct (dget (cs_mix (sg_control r)) "aileron"), (dget (cs_mix (sg_control r)) "elevator"),
             (dget (cs_mix (sg_control r)) "rudder"), (dget (cs_mix (sg_control r)) "flap");
    cbn; rewrite ?Ropp_0; reflexivity. }
  rewrite Em.
  unfold seg_control_span, seg_control_chord. cbn [sg_control sg_side left_twin_of]. rewrite Hs.
  set (x0 := cs_span_root (sg_control r)) in *. set (x1 := cs_span_tip (sg_control r)) in *.
  set (c0 := cs_chord_root (sg_control r)). set (c1 := cs_chord_tip (sg_control r)).
  unfold ngtb. rnum.
  assert (E1 : Rltb (1 - x1) s && Rltb s (1 - x0) = Rltb x0 (1 - s) && Rltb (1 - s) x1).
  { destruct (Rltb (1 - x1) s) eqn:A, (Rltb s (1 - x0)) eqn:B, (Rltb x0 (1 - s)) eqn:C, (Rltb (1 - s) x1) eqn:D;
    auto; repeat match goal with
    | H : Rltb _ _ = true |- _ => apply Rltb_true in H
    | H : Rltb _ _ = false |- _ => apply Rltb_false in H end; lra. }
  rewrite E1.
  replace ((s - (1 - x1)) * ((c0 - c1) / (1 - x0 - (1 - x1))) + c1)
    with ((1 - s - x0) * ((c1 - c0) / (x1 - x0)) + c0) by (field; lra).
  destruct (Rltb x0 (1 - s) && Rltb (1 - s) x1).
  - destruct (seg_control_mix r) as [[[? ?] ?] ?]. reflexivity.
  - cbn. now rewrite Ropp_0.
Qed.

Lemma interp_rev (a b s : R) : interp a b s = interp b a (1 - s).
Proof. unfold interp; rnum. ring. Qed.

Lemma unit_vectors_mirror m w d :
  let '(ua, un, us) := unit_vectors SLeft m w d in
  let '(ua', un', us') := unit_vectors SRight m w d in
  ua = mirror ua' /\ un = mirror un' /\ us = vopp (mirror us').
Proof.
  unfold unit_vectors. repeat split; unfold mirror; try vring.
Qed.

Lemma section_mirror cosine (r : segment R) nm at_ L R' i :
  sg_side r = SRight -> L <> R' -> (i < sg_num r)%nat ->
  cs_span_tip (sg_control r) - cs_span_root (sg_control r) <> 0 ->
  set_ic2 (make_section cosine (left_twin_of r nm at_) (mirror R') (mirror L) i)
  = mirror_section nm (set_ic2 (make_section cosine r L R' (sg_num r - 1 - i))).
Proof.
  intros Hs HLR Hi Hne.
  assert (HLR' : mirror R' <> mirror L).
  { intros E. apply HLR. rewrite <- (mirror_mirror L), <- E. apply mirror_mirror. }
  set (l := left_twin_of r nm at_). set (n := sg_num r) in *. set (j := (n - 1 - i)%nat).
  assert (Hj : (j < n)%nat) by (unfold j; lia).
  destruct (sp_sym cosine n i Hi) as (S1 & S2 & S0). fold j in S1, S2, S0.
  assert (Hl : sg_side l = SLeft) by reflexivity.
  assert (Hn : sg_num l = n) by reflexivity.
  (* points *)
  assert (Hpt : forall t, segment_point (mirror R') (mirror L) t = mirror (segment_point L R' (1 - t))).
  { intros t. rewrite !segment_point_at by auto. rewrite mirror_point. now rewrite point_at_rev. }
  assert (Er : s_r (make_section cosine l (mirror R') (mirror L) i) = mirror (s_r (make_section cosine r L R' j))).
  { rewrite !ms_r, Hn, Hpt. fold n. now rewrite S0. }
  assert (Er1 : s_r1 (make_section cosine l (mirror R') (mirror L) i) = mirror (s_r2 (make_section cosine r L R' j))).
  { rewrite ms_r1, ms_r2, Hn, Hpt. fold n. now rewrite S2. }
  assert (Er2 : s_r2 (make_section cosine l (mirror R') (mirror L) i) = mirror (s_r1 (make_section cosine r L R' j))).
  { rewrite ms_r1, ms_r2, Hn, Hpt. fold n. now rewrite S1. }
  assert (Ec : s_c (make_section cosine l (mirror R') (mirror L) i) = s_c (make_section cosine r L R' j)).
  { rewrite !ms_c, Hn. unfold chord_l, chord_r. rewrite Hl, Hs. fold n. rewrite S0. simpl. apply interp_rev. }
  assert (Ec1 : s_c1 (make_section cosine l (mirror R') (mirror L) i) = s_c2 (make_section cosine r L R' j)).
  { rewrite ms_c1, ms_c2, Hn. unfold chord_l, chord_r. rewrite Hl, Hs. fold n. rewrite S2. simpl. apply interp_rev. }
  assert (Ec2 : s_c2 (make_section cosine l (mirror R') (mirror L) i) = s_c1 (make_section cosine r L R' j)).
  { rewrite ms_c1, ms_c2, Hn. unfold chord_l, chord_r. rewrite Hl, Hs. fold n. rewrite S1. simpl. apply interp_rev. }
  assert (EdS : s_dS (make_section cosine l (mirror R') (mirror L) i) = s_dS (make_section cosine r L R' j)).
  { rewrite !ms_dS, Er1, Er2, Ec1, Ec2. unfold section_area. rewrite <- mirror_sub, mirror_norm.
    change (sg_sweep l) with (sg_sweep r).
    assert (En : forall a b : rv, vnorm (vsub a b) = vnorm (vsub b a)).
    { intros a b. unfold vnorm. f_equal. vring. }
    rewrite En. rnum. unfold Rdiv. ring. }
  assert (Ew : wash_at cosine l i = wash_at cosine r j).
  { unfold wash_at. rewrite Hl, Hs, Hn. fold n. rewrite S0. apply interp_rev. }
  pose proof (ms_frame cosine l (mirror R') (mirror L) i) as Fl.
  pose proof (ms_frame cosine r L R' j) as Fr.
  rewrite Ew, Hl in Fl. rewrite Hs in Fr.
  change (sg_mount l) with (sg_mount r) in Fl. change (sg_dihedral l) with (sg_dihedral r) in Fl.
  pose proof (unit_vectors_mirror (sg_mount r) (wash_at cosine r j) (sg_dihedral r)) as Fm.
  rewrite <- Fl, <- Fr in Fm. clear Fl Fr. destruct Fm as (Fa & Fn & Fs).
  pose proof (ms_control cosine l (mirror R') (mirror L) i) as Cl.
  pose proof (ms_control cosine r L R' j) as Cr.
  rewrite Hn in Cl. fold n in Cr. unfold l in Cl. rewrite control_mirror in Cl by auto.
  fold l in Cl. rewrite <- S0, <- Cr in Cl. injection Cl as C1 C2 C3 C4 C5 C6.
  destruct (ms_coef cosine l (mirror R') (mirror L) i) as (K1 & K2 & K3 & K4 & K5 & K6 & K7 & K8).
  destruct (ms_coef cosine r L R' j) as (J1 & J2 & J3 & J4 & J5 & J6 & J7 & J8).
  destruct (ms_angles cosine l (mirror R') (mirror L) i) as (A1 & A2 & A3).
  destruct (ms_angles cosine r L R' j) as (B1 & B2 & B3).
  assert (Ecoef : forall f : airfoil R -> R,
             interp_tri (f (af_l l)) (f (af_r l)) (sp_cp cosine n i)
             = swap_tri (interp_tri (f (af_l r)) (f (af_r r)) (sp_cp cosine n j))).
  { intros f. unfold af_l, af_r. rewrite Hl, Hs. unfold interp_tri, swap_tri. simpl. f_equal.
    rewrite S0. apply interp_rev. }
  assert (Eic : integral_chord2 (make_section cosine l (mirror R') (mirror L) i)
                = integral_chord2 (make_section cosine r L R' j)).
  { unfold integral_chord2. rewrite Er1, Er2, Ec1, Ec2, Fs. rewrite <- mirror_sub.
    replace (vdot (vopp (mirror (s_us (make_section cosine r L R' j))))
              (mirror (vsub (s_r1 (make_section cosine r L R' j)) (s_r2 (make_section cosine r L R' j)))))
      with (vdot (s_us (make_section cosine r L R' j))
              (vsub (s_r2 (make_section cosine r L R' j)) (s_r1 (make_section cosine r L R' j))))
      by (unfold mirror; vring).
    rnum. unfold Rdiv. ring. }
  unfold set_ic2, mirror_section.
  cbn [s_name s_sp s_sp1 s_sp2 s_r s_r1 s_r2 s_c s_c1 s_c2 s_dS s_cla s_al0 s_cma s_cml0 s_cd0 s_cd1 s_cd2
       s_clmax s_washout s_mount s_dihedral s_sweep s_ua s_un s_us s_flap_eff s_mix_a s_mix_e s_mix_r
       s_mix_f s_cmd s_ic2].
  rewrite Er, Er1, Er2, Ec, Ec1, Ec2, EdS, Fa, Fn, Fs, C1, C2, C3, C4, C5, C6, Eic.
  rewrite K1, K2, K3, K4, K5, K6, K7, K8, J1, J2, J3, J4, J5, J6, J7, J8, Hn. fold n.
  rewrite !Ecoef, A1, A2, A3, B1, B2, B3.
  rewrite !ms_washout, Ew, !ms_sp, !ms_sp1, !ms_sp2, Hn. fold n. rewrite S0, S1, S2.
  rewrite make_section_name. unfold l. cbn [sg_name left_twin_of sg_mount sg_dihedral sg_sweep].
  assert (H11 : forall x : R, 1 - (1 - x) = x) by (intros; ring).
  rewrite !H11. reflexivity.
Qed.

(** Block by block, for every airplane that can be built. *)
Lemma block_mirror cosine (pl : airplane R) g w k sl sr :
  built pl -> make_grid cosine pl = Ok g ->
  In w (lookup_wings pl) -> symmetric_wing pl w -> wing_segments w = [sl; sr] ->
  nth_error (wingsegments pl) k = Some sl -> nth_error (wingsegments pl) (S k) = Some sr ->
  0 < sg_span sl ->
  sg_num sl = sg_num sr /\
  forall i s, nth_error (block_of g k) i = Some s ->
  exists s', nth_error (block_of g (S k)) (sg_num sr - 1 - i) = Some s' /\
             s = mirror_section (sg_name sl) s'.
Proof.
  intros Hb Hg Hw Hsym Hseg Hk Hk' Hspan.
  pose proof (built_wings_ok Hb) as Hst.
  assert (Hok : wing_ok w).
  { unfold lookup_wings in Hw. apply in_flat_map in Hw. destruct Hw as (e & _ & He).
    destruct (nth_error (a_store pl) (snd e)) as [w'|] eqn:E; simpl in He; [|contradiction].
    destruct He as [->|[]]. rewrite Forall_forall in Hst. apply Hst. eapply nth_error_In; eauto. }
  destruct (symmetric_pair pl w Hst Hok Hsym) as (l & r & Hl & Hr & Hs & Hy & Htw & Hpair).
  assert (Hside : w_side w = WBoth) by (destruct Hsym; auto).
  unfold wing_segments in Hseg. rewrite Hside, Hl, Hr in Hseg. simpl in Hseg.
  injection Hseg as -> ->.
  assert (Hnum : sg_num sl = sg_num sr) by (rewrite Htw; reflexivity).
  split; auto. intros i s Hi.
  destruct (block_of_spec _ _ _ Hg Hk) as (bl & Hbl & El).
  destruct (block_of_spec _ _ _ Hg Hk') as (br & Hbr & Er).
  destruct (segment_block_inv _ _ _ Hbl) as (_ & Ll & Rl & HLl & HRl & _ & ->).
  destruct (segment_block_inv _ _ _ Hbr) as (_ & Lr & Rr & HLr & HRr & Hne & ->).
  rewrite El, map_map, nth_error_seq_map in Hi. rewrite Er, map_map, nth_error_seq_map.
  destruct (Nat.ltb_spec i (sg_num sl)) as [Hin|]; [|discriminate].
  assert (Hj : (sg_num sr - 1 - i < sg_num sr)%nat) by lia.
  apply Nat.ltb_lt in Hj. rewrite Hj. simpl in Hi. inversion Hi; subst s; clear Hi.
  eexists; split; [reflexivity|]. simpl Nat.add.
  destruct (Hpair (position_fuel pl)) as [HA HB].
  rewrite HRr, HLl in HA. rewrite HLr, HRl in HB. simpl in HA, HB. subst Ll Rl.
  rewrite Htw. cbn [sg_name left_twin_of]. apply section_mirror; auto.
  - apply (tips_distinct (position_fuel pl) pl sr); auto. rewrite Htw in Hspan. exact Hspan.
  - lia.
  - unfold seg_control_span in Hne. rewrite Hs in Hne. simpl in Hne. apply Reqb_false in Hne. exact Hne.
Qed.
