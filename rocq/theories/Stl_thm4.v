(** The whole drawing over the real numbers (C62, C63). *)
From Coq Require Import Reals ZArith String Ascii Bool Arith List Lra Lia Permutation Sorted.
From Verif Require Import Base Num RVec Geometry Grid Spec_Grid Grid_R Grid_facts Grid_thm PropModel MU
     Stl Spec_Stl Stl_thm Stl_thm2 Stl_R Stl_thm3.
Import ListNotations.
Local Open Scope R_scope.

Lemma outline_drawn h f : drawn_profile h f ->
  exists l, outline_of (T := R) (value_after h) 50 = Ok l /\ List.length l = 50%nat /\
            forall j, (j < 50)%nat -> drawn_as (shape f j) (nth j l (0, 0)).
Proof.
  intros (d & Hd & Hf). apply value_drawn in Hd. rewrite Hd. now apply outline_shape.
Qed.

Lemma f2_length {A B} (P : A -> B -> Prop) l l' : Forall2 P l l' -> List.length l' = List.length l.
Proof. induction 1; simpl; congruence. Qed.

(** *** Wings *)
Definition slice_of (sections : list (section R)) (q : nat * nat) : list (section R) :=
  firstn (snd q - fst q) (skipn (fst q) sections).
Definition wing_rows (blk : list (section R)) (fl fr : profile) : list (list (vec3 R)) :=
  map (fun s => map (fun j => wing_vertex s (mix_shape (shape fl j) (shape fr j) (s_sp s))) (seq 0 50)) blk.

Lemma wing_parts_drawn sections segs hl hr wl wr :
  (forall q s, In q segs -> In s (slice_of sections (snd q)) ->
     exists L R' i, s = set_ic2 (make_section true (fst q) L R' i)) ->
  Forall2 drawn_profile (histories hl (map (fun q => left_name (fst q)) segs)) wl ->
  Forall2 drawn_profile (histories hr (map (fun q => right_name (fst q)) segs)) wr ->
  wing_parts 50 sections segs (value_after hl, value_after hr)
  = Ok (map (fun q => wing_rows (slice_of sections (snd (fst q))) (fst (snd q)) (snd (snd q)))
            (combine segs (combine wl wr))).
Proof.
  revert hl hr wl wr. induction segs as [|[sg [a b]] segs IH]; intros hl hr wl wr HM Hl Hr.
  - reflexivity.
  - cbn [map histories fst] in Hl, Hr.
    inversion Hl as [|? fl ? wl' Fl Fl']; subst. inversion Hr as [|? fr ? wr' Fr Fr']; subst.
    cbn [wing_parts]. cbv zeta. unfold end_names.
    assert (HE : lr_of_side (sg_side sg) (sg_root_af sg) (sg_tip_af sg)
                 = (match sg_side sg with SLeft => sg_tip_af sg | SRight => sg_root_af sg end,
                    match sg_side sg with SLeft => sg_root_af sg | SRight => sg_tip_af sg end)).
    { unfold lr_of_side. destruct (sg_side sg); reflexivity. }
    rewrite HE. cbn [fst snd]. fold (left_name sg). fold (right_name sg).
    change (naca_of (value_after hl) (left_name sg)) with (value_after (left_name sg :: hl)).
    change (naca_of (value_after hr) (right_name sg)) with (value_after (right_name sg :: hr)).
    destruct (outline_drawn _ _ Fl) as (l & -> & Ll & Dl). destruct (outline_drawn _ _ Fr) as (r & -> & Lr & Dr).
    cbn [rbind]. rewrite (IH (left_name sg :: hl) (right_name sg :: hr) wl' wr'); auto.
    2:{ intros q s Hq. apply HM. now right. }
    cbn [rbind combine map fst snd]. f_equal. f_equal.
    unfold wing_rows. fold (slice_of sections (a, b)).
    change (firstn (b - a) (skipn a sections)) with (slice_of sections (a, b)).
    apply map_ext_in. intros s Hs.
    destruct (HM (sg, (a, b)) s (or_introl eq_refl) Hs) as (L & R' & i & ->). cbn [fst].
    apply section_row_vertices; auto.
Qed.

Lemma list_as_seq {A} (l : list A) d : l = map (fun k => nth k l d) (seq 0 (List.length l)).
Proof.
  induction l as [|x l IH]; simpl; auto. f_equal. rewrite <- seq_shift, map_map. exact IH.
Qed.
Lemma combine_nth_any {A B} (l : list A) (l' : list B) x y k :
  List.length l = List.length l' -> nth k (combine l l') (x, y) = (nth k l x, nth k l' y).
Proof. apply combine_nth. Qed.
Lemma histories_length older l : List.length (histories older l) = List.length l.
Proof. revert older. induction l; intros; simpl; auto. Qed.

Lemma wing_drawing (pl : airplane R) g wl wr :
  make_grid true pl = Ok g ->
  Forall2 drawn_profile (histories [] (map left_name (wingsegments pl))) wl ->
  Forall2 drawn_profile (histories [] (map right_name (wingsegments pl))) wr ->
  exists parts, grid_parts 50 (Some g) = Ok parts /\ flat_map (surface false) parts = wing_mesh g wl wr.
Proof.
  intros Hg Hl Hr.
  pose proof (grid_well_sliced _ _ Hg) as (W1 & _ & _).
  pose proof (make_grid_spec _ _ Hg) as (_ & _ & _ & Hseg & _).
  assert (Ll : List.length wl = List.length (g_segments g)).
  { apply f2_length in Hl. rewrite histories_length, map_length in Hl. congruence. }
  assert (Lr : List.length wr = List.length (g_segments g)).
  { apply f2_length in Hr. rewrite histories_length, map_length in Hr. congruence. }
  set (segs := combine (g_segments g) (g_slices g)).
  assert (Lsegs : List.length segs = List.length (g_segments g)).
  { subst segs. rewrite combine_length. lia. }
  assert (Hfst : map fst segs = wingsegments pl).
  { rewrite <- Hseg. subst segs. clear - W1. revert W1. generalize (g_slices g). generalize (g_segments g).
    induction l as [|x l IH]; intros [|y l'] H; simpl in *; try discriminate; auto. f_equal. apply IH. lia. }
  assert (HK : forall k q, nth_error segs k = Some q ->
            nth_error (wingsegments pl) k = Some (fst q) /\ block_of g k = slice_of (g_sections g) (snd q)).
  { intros k q Hq. split.
    - rewrite <- Hfst. now apply map_nth_error.
    - unfold block_of. assert (E : nth_error (g_slices g) k = Some (snd q)).
      { subst segs. clear - Hq. revert k Hq. generalize (g_slices g). generalize (g_segments g).
        induction l as [|x l IH]; intros [|y l'] [|k] H; simpl in *; try discriminate.
        - now injection H as <-.
        - eapply IH; eauto. }
      rewrite E. destruct (snd q) as [a b]. reflexivity. }
  eexists. split.
  - unfold grid_parts. change (@None string, @None string) with (value_after [], value_after []).
    apply (wing_parts_drawn (g_sections g) segs [] [] wl wr).
    + intros q s Hq Hs. apply In_nth_error in Hq. destruct Hq as [k Hk]. destruct (HK k q Hk) as [H1 H2].
      rewrite <- H2 in Hs. destruct (block_section _ _ _ _ _ _ Hg H1 Hs) as (L & R' & i & _ & -> & _). eauto.
    + rewrite <- (map_map fst left_name), Hfst. exact Hl.
    + rewrite <- (map_map fst right_name), Hfst. exact Hr.
  - unfold wing_mesh. rewrite !flat_map_concat_map. f_equal. rewrite map_map.
    destruct segs as [|q0 segs'] eqn:Es.
    { simpl in Lsegs. rewrite <- Lsegs. reflexivity. }
    set (d0 := MkProfile 0 0 0).
    rewrite (list_as_seq (combine (q0 :: segs') (combine wl wr)) (q0, (d0, d0))) at 1.
    rewrite map_map. rewrite !combine_length, Ll, Lr, Lsegs, !Nat.min_id.
    apply map_ext_in. intros k Hk. apply in_seq in Hk.
    rewrite combine_nth_any by (rewrite combine_length; lia).
    rewrite combine_nth_any by lia. cbn [fst snd]. unfold wing_rows.
    destruct (nth_error (q0 :: segs') k) as [q|] eqn:Eq.
    2:{ apply nth_error_None in Eq. lia. }
    rewrite (nth_error_nth _ _ q0 Eq). destruct (HK k q Eq) as [_ ->]. reflexivity.
Qed.

(** *** Blades *)
Lemma sort_span_spec (l l' : list (R * airfoil R)) : sort_span l = Ok l' ->
  Permutation l' l /\ StronglySorted (fun q q' => fst q < fst q') l'.
Proof.
  assert (HI : forall p (l l' : list (R * airfoil R)), insert_span p l = Ok l' ->
     StronglySorted (fun q q' => fst q < fst q') l ->
     Permutation l' (p :: l) /\ StronglySorted (fun q q' => fst q < fst q') l').
  { clear. intros p l. induction l as [|q r IH]; intros l' H Hs; simpl in H.
    - injection H as <-. split; auto. repeat constructor.
    - rnum. destruct (Reqb (fst p) (fst q)) eqn:E1; [discriminate|].
      destruct (Rltb (fst p) (fst q)) eqn:E2.
      + injection H as <-. apply Rltb_true in E2. split; auto. constructor; auto. constructor; auto.
        inversion Hs as [|? ? S1 S2]; subst. revert S2. apply Forall_impl. intros a Ha. lra.
      + destruct (insert_span p r) as [r'|] eqn:E3; [|discriminate]. injection H as <-.
        inversion Hs as [|? ? S1 S2]; subst. destruct (IH r' eq_refl S1) as [P1 P2].
        apply Rltb_false in E2. unfold Reqb in E1. destruct (Req_EM_T (fst p) (fst q)) as [|N]; [discriminate|].
        split.
        * eapply Permutation_trans; [apply perm_skip; exact P1|apply perm_swap].
        * constructor; auto. eapply Permutation_Forall; [apply Permutation_sym; exact P1|]. constructor; [lra|auto]. }
  revert l'. induction l as [|p r IH]; intros l' H; simpl in H.
  - injection H as <-. split; auto. constructor.
  - destruct (sort_span r) as [r'|]; [|discriminate]. cbn [rbind] in H. destruct (IH r' eq_refl) as [P1 P2].
    destruct (HI p r' l' H P2) as [Q1 Q2]. split; auto.
    eapply Permutation_trans; [exact Q1|]. now apply perm_skip.
Qed.

Lemma last_of_rev {A} (l : list A) : last_of l = hd_error (rev l).
Proof.
  destruct l as [|x l] using rev_ind; [reflexivity|].
  rewrite rev_app_distr. unfold last_of. rewrite app_length. simpl.
  rewrite Nat.add_1_r. simpl. rewrite nth_error_app2 by lia. now rewrite Nat.sub_diag.
Qed.

Lemma span_of_spec zs (a : airfoil R) q : span_of zs a = Ok q -> snd q = a /\ airfoil_at zs a (fst q).
Proof.
  unfold span_of, airfoil_at. destruct (af_span_position a) as [|b|z|x|s|d|l]; try discriminate; cbn.
  - destruct b; intros H; injection H as <-; auto.
  - intros H; injection H as <-; auto.
  - intros H; injection H as <-; auto.
  - destruct (String.eqb_spec s "root") as [->|N1]; cbn [orb].
    { destruct zs; [discriminate|]. intros H; injection H as <-. cbn. auto 10. }
    destruct (String.eqb_spec s "Root") as [->|N2]; cbn [orb].
    { destruct zs; [discriminate|]. intros H; injection H as <-. cbn. auto 10. }
    destruct (String.eqb_spec s "ROOT") as [->|N3]; cbn [orb].
    { destruct zs; [discriminate|]. intros H; injection H as <-. cbn. auto 10. }
    rewrite last_of_rev.
    destruct (String.eqb_spec s "tip") as [->|N4]; cbn [orb].
    { destruct (hd_error (rev zs)); [|discriminate]. intros H; injection H as <-. cbn. auto 10. }
    destruct (String.eqb_spec s "Tip") as [->|N5]; cbn [orb].
    { destruct (hd_error (rev zs)); [|discriminate]. intros H; injection H as <-. cbn. auto 10. }
    destruct (String.eqb_spec s "TIP") as [->|N6]; cbn [orb].
    { destruct (hd_error (rev zs)); [|discriminate]. intros H; injection H as <-. cbn. auto 10. }
    unfold is_root, is_tip, peq_str.
    rewrite (proj2 (String.eqb_neq _ _) N1), (proj2 (String.eqb_neq _ _) N2), (proj2 (String.eqb_neq _ _) N3),
      (proj2 (String.eqb_neq _ _) N4), (proj2 (String.eqb_neq _ _) N5), (proj2 (String.eqb_neq _ _) N6).
    discriminate.
Qed.

Lemma span_list_airfoils p zs l : span_list (T := R) p zs = Ok l -> blade_airfoils p zs l.
Proof.
  unfold span_list, blade_airfoils, placed_on. destruct (pr_airfoils p) as [|[k a] [|[k' a'] r]]; cbn [map snd].
  - intros H; injection H as <-. eexists. split; reflexivity.
  - intros H; injection H as <-. eexists. split; reflexivity.
  - destruct (rmap (span_of zs) (a :: a' :: map snd r)) as [x|] eqn:Ex; cbn [rbind]; [|discriminate].
    destruct (sort_span x) as [y|] eqn:Ey; cbn [rbind]; [|discriminate].
    intros H; injection H as <-. exists y. destruct (sort_span_spec _ _ Ey) as [P S].
    assert (G : forall l x, rmap (span_of zs) l = Ok x ->
       map snd x = l /\ Forall (fun q => airfoil_at zs (snd q) (fst q)) x).
    { clear. induction l as [|a l IH]; intros x H; simpl in H.
      - injection H as <-. split; [reflexivity|constructor].
      - destruct (span_of zs a) as [q|] eqn:Eq; [|discriminate]. cbn [rbind] in H.
        destruct (rmap (span_of zs) l) as [qs|]; [|discriminate]. injection H as <-.
        destruct (IH qs eq_refl) as [I1 I2]. destruct (span_of_spec _ _ _ Eq) as [S1 S2].
        split; [simpl; congruence|]. constructor; auto. now rewrite S1. }
    destruct (G _ _ Ex) as [G1 G2]. repeat split; auto.
    + rewrite <- G1. now apply Permutation_map.
    + eapply Permutation_Forall; [apply Permutation_sym; exact P|auto].
Qed.

Definition rising {A} (l : list (R * A)) : Prop := StronglySorted (fun q q' => fst q < fst q') l.

Lemma interp_affine a b (cs qs : list (R * R)) z : qs <> [] -> rising qs ->
  Forall2 (fun c q => fst c = fst q /\ snd c = a * snd q + b) cs qs ->
  interp_clamped cs z = a * broken_line qs z + b.
Proof.
  assert (G : forall cs qs x0 y0 hi, ~ z < x0 -> rising ((x0, y0) :: qs) ->
     Forall2 (fun c q : R * R => fst c = fst q /\ snd c = a * snd q + b) cs qs ->
     (forall c, last_of ((x0, a * y0 + b) :: cs) = Some c -> hi = snd c) ->
     interp_from x0 (a * y0 + b) cs hi z = a * broken_line ((x0, y0) :: qs) z + b).
  { clear. induction cs as [|[cx cy] cs IH]; intros qs x0 y0 hi Hz HS HF Hh.
    - inversion HF; subst. cbn [interp_from broken_line]. rewrite (Hh _ eq_refl). cbn [snd].
      destruct (nltb x0 z); reflexivity.
    - inversion HF as [|? [qx qy] ? qs' [E1 E2] HF']; subst. cbn [fst snd] in E1, E2. subst.
      inversion HS as [|? ? S1 S2]; subst. inversion S2 as [|? ? S3 S4]; subst. cbn [fst] in S3.
      cbn [interp_from]. rnum. unfold Rleb.
      change (broken_line ((x0, y0) :: (qx, qy) :: qs') z)
        with (if Rle_dec z x0 then y0 else if Rle_dec z qx then between y0 qy ((z - x0) / (qx - x0))
              else broken_line ((qx, qy) :: qs') z).
      destruct (Rle_dec z qx) as [L|L].
      + destruct (Rle_dec z x0) as [L0|L0].
        * assert (z = x0) as -> by lra. unfold Rdiv. ring.
        * unfold between, Rdiv. ring.
      + destruct (Rle_dec z x0) as [L0|L0]; [lra|].
        apply IH; auto; try lra. }
  intros Hne HS HF. inversion HF as [|[cx cy] [qx qy] cs' qs' [E1 E2] HF']; subst; [congruence|].
  cbn [fst snd] in E1, E2. subst. unfold interp_clamped.
  destruct (last_of ((qx, a * qy + b) :: cs')) as [[lx ly]|] eqn:EL.
  2:{ exfalso. unfold last_of in EL. apply nth_error_None in EL. simpl in EL. lia. }
  unfold interpolate. rnum. unfold Rltb. destruct (Rlt_dec z qx) as [L|L].
  - destruct qs'; cbn [broken_line].
    + ring.
    + destruct p. destruct (Rle_dec z qx); [ring|lra].
  - apply G; auto. intros c Hc. rewrite EL in Hc. now injection Hc as <-.
Qed.

Definition outline_like (o : R * list (R * R)) (q : R * profile) : Prop :=
  fst o = fst q /\ forall j, (j < 50)%nat -> drawn_as (shape (snd q) j) (nth j (snd o) (0, 0)).

Lemma rising_map {A B} (f : R * A -> R * B) l : (forall q, fst (f q) = fst q) -> rising l -> rising (map f l).
Proof.
  intros Hf. induction 1 as [|q l H1 IH H2]; simpl; constructor; auto.
  apply Forall_map. revert H2. apply Forall_impl. intros q'. now rewrite !Hf.
Qed.

Lemma blade_point_drawn outs pr j z : pr <> [] -> rising pr -> Forall2 outline_like outs pr -> (j < 50)%nat ->
  drawn_as (broken_shape pr j z) (blade_point outs j z).
Proof.
  intros Hne HS HF Hj.
  assert (G : forall sel : R * R -> R, forall b : R,
     (forall c q, drawn_as q c -> sel c = -1 * sel q + b) ->
     interp_clamped (map (fun q => (fst q, sel (nth j (snd q) (0, 0)))) outs) z
     = -1 * broken_line (map (fun q => (fst q, sel (shape (snd q) j))) pr) z + b).
  { intros sel b Hsel. apply interp_affine.
    - destruct pr; simpl; congruence.
    - apply rising_map; auto.
    - clear Hne HS. induction HF as [|o q outs pr [H1 H2] HF IH]; simpl; constructor; auto. cbn [fst snd]. auto. }
  destruct outs as [|[x o] [|o2 outs]].
  - inversion HF; subst. congruence.
  - inversion HF as [|? q ? l [H1 H2] HF']; subst. inversion HF'; subst. destruct q as [y f].
    cbn [fst snd] in *. unfold broken_shape, blade_point. cbn [map broken_line fst snd].
    rewrite <- surjective_pairing. auto.
  - unfold blade_point, broken_shape. cbv beta iota. unfold drawn_as. cbn [fst snd]. rnum.
    rewrite (G fst (1 / 4)), (G snd 0).
    + split; ring.
    + intros c q [_ ->]. ring.
    + intros c q [-> _]. ring.
Qed.

Lemma histories_app h a b : histories h (a ++ b) = histories h a ++ histories (rev a ++ h) b.
Proof.
  revert h. induction a as [|x a IH]; intros h; simpl; auto. f_equal. rewrite IH. now rewrite <- app_assoc.
Qed.
Lemma f2_split {A B} (P : A -> B -> Prop) a a' b b' : List.length a = List.length b ->
  Forall2 P (a ++ a') (b ++ b') -> Forall2 P a b /\ Forall2 P a' b'.
Proof.
  revert b. induction a as [|x a IH]; intros [|y b] HL H; simpl in *; try discriminate; auto.
  inversion H; subst. destruct (IH b) as [I1 I2]; auto.
Qed.

Lemma blade_outlines_drawn (a : list (R * string)) (b : list (R * profile)) h :
  map fst a = map fst b -> Forall2 drawn_profile (histories h (map snd a)) (map snd b) ->
  exists outs, blade_outlines 50 a (value_after h) = Ok (outs, value_after (rev (map snd a) ++ h)) /\
               Forall2 outline_like outs b.
Proof.
  revert b h. induction a as [|[x name] a IH]; intros [|[y f] b] h E H; simpl in E; try discriminate.
  - exists []. split; [reflexivity|constructor].
  - injection E as -> E. cbn [map snd histories] in H. inversion H as [|? ? ? ? H1 H2]; subst.
    destruct (outline_drawn _ _ H1) as (o & Ho & _ & HD). destruct (IH b (name :: h) E H2) as (outs & I1 & I2).
    cbn [blade_outlines]. cbv zeta.
    change (naca_of (value_after h) name) with (value_after (name :: h)). rewrite Ho. cbn [rbind].
    rewrite I1. cbn [rbind]. eexists. split.
    + cbn [map snd rev]. rewrite <- app_assoc. reflexivity.
    + constructor; auto. split; auto.
Qed.

Lemma turned_spec full delta pos k a (rows : list (list (vec3 R))) :
  turned full (euler2quat delta 0 0) pos k (map (map (rotx a)) rows)
  = map (fun b => map (map (fun v => vadd (body2fixed (rotx (a + INR b * delta) v) full) pos)) rows) (seq 0 k).
Proof.
  revert a. induction k as [|k IH]; intros a; [reflexivity|].
  cbn [turned seq map]. f_equal.
  - rewrite map_map. apply map_ext. intros r. rewrite map_map. apply map_ext. intros v.
    simpl INR. now rewrite Rmult_0_l, Rplus_0_r.
  - rewrite map_map.
    transitivity (turned full (euler2quat delta 0 0) pos k (map (map (rotx (a + delta))) rows)).
    + f_equal. apply map_ext. intros r. rewrite map_map. apply map_ext. intros v.
      rewrite body_rotx, rotx_comp. f_equal. ring.
    + rewrite IH, <- seq_shift, map_map. apply map_ext. intros b. apply map_ext. intros r. apply map_ext. intros v.
      rewrite S_INR. do 3 f_equal. ring.
Qed.
Lemma rotx_zero v : rotx 0 v = v.
Proof. destruct v. unfold rotx. rewrite cos_0, sin_0. cbn. f_equal; ring. Qed.

Definition drawn_pitch (s : station R) : R := z_beta s - z_al0 s.

Lemma blade_rows_drawn (g : pgeom R) outs pr :
  pr <> [] -> rising pr -> Forall2 outline_like outs pr ->
  (pg_rot g = 1 \/ pg_rot g = -1) -> pg_forward g = forward_of (pg_theta g) (pg_gamma g) -> (0 < pg_k g)%nat ->
  flat_map (surface (negb (neqb (pg_rot g) n1))) (blade_rows 50 g outs (pg_k g)) = propeller_mesh drawn_pitch g pr.
Proof.
  intros Hne HS HF Hrot Hfw Hk. unfold blade_rows. cbv zeta.
  set (rows := map (blade_row 50 (pg_rot g) outs) (pg_stations g)).
  assert (E0 : rows = map (map (rotx 0)) rows).
  { symmetry. rewrite <- map_id. apply map_ext. intros r. rewrite <- map_id. apply map_ext. apply rotx_zero. }
  rewrite E0 at 1. clear E0. rnum. rewrite turned_spec.
  unfold propeller_mesh. rewrite !flat_map_concat_map, map_map. f_equal. apply map_ext. intros b.
  assert (EF : negb (Reqb (pg_rot g) 1) = if Req_EM_T (pg_rot g) 1 then false else true).
  { unfold Reqb. destruct (Req_EM_T (pg_rot g) 1); reflexivity. }
  rewrite EF. f_equal. subst rows. rewrite map_map. apply map_ext_in. intros s _.
  unfold blade_row. cbv zeta. rewrite map_map. apply map_ext_in. intros j Hj. apply in_seq in Hj.
  replace (0 + INR b * (2 * PI / IZR (Z.of_nat (pg_k g)))) with (blade_angle (pg_k g) b).
  2:{ rewrite <- INR_IZR_INZ. unfold blade_angle, Rdiv. ring. }
  assert (HD : drawn_as (broken_shape pr j (z_zeta s)) (blade_point outs j (z_zeta s))).
  { apply blade_point_drawn; auto. lia. }
  pose proof (blade_point_vertex g b s (drawn_pitch s) _ _ HD Hrot Hfw) as HV. cbv zeta in HV.
  rewrite <- HV. unfold drawn_pitch. rnum. reflexivity.
Qed.

Lemma blade_airfoils_rising p zs a : blade_airfoils p zs a -> a <> [] /\ rising a.
Proof.
  unfold blade_airfoils, placed_on. destruct (pr_airfoils p) as [|[k a1] [|[k' a2] r]].
  - intros (? & -> & ->). split; [discriminate|]. repeat constructor.
  - intros (? & -> & ->). split; [discriminate|]. repeat constructor.
  - intros (placed & (P & _ & S) & ->). split.
    + apply Permutation_length in P. rewrite map_length in P. destruct placed; discriminate.
    + apply rising_map; auto.
Qed.
Lemma rising_fst {A B} (a : list (R * A)) (b : list (R * B)) : map fst a = map fst b -> rising a -> rising b.
Proof.
  revert b. induction a as [|x a IH]; intros [|y b] E H; simpl in E; try discriminate; [constructor|].
  injection E as E1 E2. inversion H as [|? ? H1 H2]; subst. constructor; [now apply IH|].
  apply Forall_forall. intros q Hq. rewrite <- E1.
  assert (In (fst q) (map fst a)) by (rewrite E2; now apply in_map).
  rewrite in_map_iff in H0. destruct H0 as (q' & <- & Hq'). rewrite Forall_forall in H2. auto.
Qed.

Definition placed_well (q : prop R * pgeom R) : Prop :=
  (0 < pg_k (snd q))%nat /\ pg_stations (snd q) <> [] /\
  (pg_rot (snd q) = 1 \/ pg_rot (snd q) = -1) /\
  pg_forward (snd q) = forward_of (pg_theta (snd q)) (pg_gamma (snd q)).

Lemma prop_drawing (props : list (prop R * pgeom R)) afs bprof h :
  Forall placed_well props ->
  Forall2 (fun q a => span_list (fst q) (map (@z_zeta R) (pg_stations (snd q))) = Ok a) props afs ->
  Forall2 (fun a b => map fst a = map fst b) afs bprof ->
  Forall2 drawn_profile (histories h (map snd (concat afs))) (map snd (concat bprof)) ->
  exists parts, prop_parts 50 props (value_after h) = Ok parts /\
    prop_mesh parts = concat (map (fun q => propeller_mesh drawn_pitch (snd (fst q)) (snd q)) (combine props bprof)).
Proof.
  revert afs bprof h. induction props as [|[p g] props IH]; intros afs bprof h HP HA HB HD.
  - inversion HA; subst. inversion HB; subst. exists []. split; reflexivity.
  - inversion HA as [|? a ? afs' A1 A2]; subst. inversion HB as [|? b ? bprof' B1 B2]; subst.
    inversion HP as [|? ? (P1 & P2 & P3 & P4) P5]; subst. cbn [fst snd] in *.
    cbn [concat] in HD. rewrite !map_app, histories_app in HD.
    apply f2_split in HD.
    2:{ rewrite histories_length, !map_length, <- (map_length fst a), <- (map_length fst b). now f_equal. }
    destruct HD as [D1 D2].
    destruct (blade_outlines_drawn a b h B1 D1) as (outs & O1 & O2).
    destruct (blade_airfoils_rising _ _ _ (span_list_airfoils _ _ _ A1)) as [N1 N2].
    assert (Nb : b <> []). { intros ->. destruct a; [congruence|discriminate]. }
    destruct (IH afs' bprof' _ P5 A2 B2 D2) as (parts & I1 & I2).
    eexists. split.
    + cbn [prop_parts]. rewrite A1. cbn [rbind]. rewrite O1. cbn [rbind].
      destruct (Nat.eqb_spec (pg_k g) 0); [lia|]. rewrite I1. reflexivity.
    + unfold prop_mesh in *. cbn [flat_map fst snd combine map concat]. rewrite I2. f_equal.
      apply (blade_rows_drawn g outs b); auto. eapply rising_fst; eauto.
Qed.

