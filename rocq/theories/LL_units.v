(** Changing the system of units: the grid and the lifting-line solution (C72). *)
From Coq Require Import Reals ZArith String Bool Arith Lia Lra List.
From Verif Require Import Base Num RVec Geometry Grid LLModel Spec_Grid Spec_LL Spec_Units LL_state LL_R LL_solve Grid_thm LL_props LL_thm LL_scale.
Import ListNotations.
Local Open Scope R_scope.

Section Units.
  Variables m k l : R.
  Variable usys : option string.
  Hypothesis Hm : 0 < m.
  Hypothesis Hk : 0 < k.
  Hypothesis Hl : 0 < l.

  (** *** Positions *)
  Lemma local_left_in s : seg_local_left (segment_in l s) = vscale l (seg_local_left s).
  Proof.
    unfold seg_local_left. cbn [segment_in sg_side sg_delta sg_sweep sg_dihedral sg_span sg_yoffset].
    destruct (sg_side s); apply vec_eq; unfold vscale; cbn [vx vy vz]; rnum; unfold Rdiv; ring.
  Qed.
  Lemma local_right_in s : seg_local_right (segment_in l s) = vscale l (seg_local_right s).
  Proof.
    unfold seg_local_right. cbn [segment_in sg_side sg_delta sg_sweep sg_dihedral sg_span sg_yoffset].
    destruct (sg_side s); apply vec_eq; unfold vscale; cbn [vx vy vz]; rnum; unfold Rdiv; ring.
  Qed.
  Definition rscale (r : res (vec3 R)) : res (vec3 R) := match r with Ok v => Ok (vscale l v) | Err e => Err e end.
  Definition parent_pos (f : nat) (pl : airplane R) (s : segment R) : res (vec3 R) :=
    match sg_parent s with
    | PNone => Ok vzero
    | PAirplane => Ok (airplane_position pl)
    | PWing id =>
        match nth_error (a_store pl) id with
        | None => Err AttributeError
        | Some w =>
            if String.eqb (sg_connect_at s) "left_tip" then
              match w_left w with Some q => seg_position f pl q (sg_connect_at s) | None => Err AttributeError end
            else if String.eqb (sg_connect_at s) "right_tip" then
              match w_right w with Some q => seg_position f pl q (sg_connect_at s) | None => Err AttributeError end
            else Err RuntimeError
        end
    end.
  Lemma position_S f pl (s : segment R) at_ : seg_position (S f) pl s at_ =
    if String.eqb at_ "left_tip" then rbind (parent_pos f pl s) (fun p => Ok (vadd (seg_local_left s) p))
    else if String.eqb at_ "right_tip" then rbind (parent_pos f pl s) (fun p => Ok (vadd (seg_local_right s) p))
    else Err RuntimeError.
  Proof. reflexivity. Qed.
  Lemma position_in f pl : forall s at_, seg_position f (plane_in l usys pl) (segment_in l s) at_ = rscale (seg_position f pl s at_).
  Proof.
    induction f as [|f IH]; intros s at_; [reflexivity|]. rewrite !position_S.
    assert (Z : vscale l (vzero : vec3 R) = vzero) by vring.
    assert (V : forall a b, vadd (vscale l a) (vscale l b) = vscale l (vadd a b)) by (intros; vring).
    assert (E : parent_pos f (plane_in l usys pl) (segment_in l s) = rscale (parent_pos f pl s)).
    { unfold parent_pos. cbn [segment_in sg_parent sg_connect_at]. destruct (sg_parent s) as [| |id].
      - cbn [rscale]. now rewrite Z.
      - cbn [rscale]. unfold airplane_position. cbn [plane_in a_position]. destruct (a_position pl); cbn [option_map]; [reflexivity|now rewrite Z].
      - cbn [plane_in a_store]. rewrite nth_error_map. destruct (nth_error (a_store pl) id) as [w|]; cbn [option_map]; [|reflexivity].
        destruct (String.eqb (sg_connect_at s) "left_tip").
        + cbn [wing_in w_left]. destruct (w_left w); cbn [option_map]; [apply IH|reflexivity].
        + destruct (String.eqb (sg_connect_at s) "right_tip"); [|reflexivity].
          cbn [wing_in w_right]. destruct (w_right w); cbn [option_map]; [apply IH|reflexivity]. }
    rewrite E. destruct (String.eqb at_ "left_tip"); [|destruct (String.eqb at_ "right_tip"); [|reflexivity]].
    - destruct (parent_pos f pl s); cbn [rbind rscale]; [|reflexivity]. now rewrite local_left_in, V.
    - destruct (parent_pos f pl s); cbn [rbind rscale]; [|reflexivity]. now rewrite local_right_in, V.
  Qed.

  (** *** Sections *)
  Definition sec_in (s : section R) : section R :=
    MkSection (s_name s) (s_sp s) (s_sp1 s) (s_sp2 s) (vscale l (s_r s)) (vscale l (s_r1 s)) (vscale l (s_r2 s))
      (l * s_c s) (l * s_c1 s) (l * s_c2 s) (l * l * s_dS s) (s_cla s) (s_al0 s) (s_cma s) (s_cml0 s)
      (s_cd0 s) (s_cd1 s) (s_cd2 s) (s_clmax s) (s_washout s) (s_mount s)
      (s_dihedral s) (s_sweep s) (s_ua s) (s_un s) (s_us s) (s_flap_eff s)
      (s_mix_a s) (s_mix_e s) (s_mix_r s) (s_mix_f s) (s_cmd s) (l * l * l * s_ic2 s).
  Lemma norm_l (v : vec3 R) : vnorm (vscale l v) = l * vnorm v.
  Proof. rewrite vnorm_scale, Rabs_pos_eq; lra. Qed.
  Lemma sub_l (a b : vec3 R) : vsub (vscale l a) (vscale l b) = vscale l (vsub a b).
  Proof. vring. Qed.
  Lemma point_in a b s : segment_point (vscale l a) (vscale l b) s = vscale l (segment_point a b s).
  Proof.
    unfold segment_point, unit_s. rewrite sub_l, (unit_k l Hl), norm_l. cbv zeta.
    generalize (vdivs (vsub b a) (vnorm (vsub b a))). intros u.
    apply vec_eq; unfold vscale; cbn [vx vy vz]; rnum; ring.
  Qed.
  Lemma interp_in a b s : interp (l * a) (l * b) s = l * interp a b s.
  Proof. unfold interp. rnum. ring. Qed.
  Lemma area_in sw a b c1 c2 : section_area sw (vscale l a) (vscale l b) (l * c1) (l * c2) = l * l * section_area sw a b c1 c2.
  Proof. unfold section_area. rewrite sub_l, norm_l. cbv zeta. rnum. unfold Rdiv. ring. Qed.
  Lemma control_in sg s : section_control (segment_in l sg) s = section_control sg s.
  Proof. reflexivity. Qed.
  Lemma make_section_in c sg a b i : make_section c (segment_in l sg) (vscale l a) (vscale l b) i = sec_in (make_section c sg a b i).
  Proof.
    unfold make_section. rewrite control_in. rewrite !point_in.
    cbn [segment_in sg_name sg_side sg_root_chord sg_tip_chord sg_num sg_washout sg_mount sg_dihedral sg_sweep sg_root_af sg_tip_af].
    assert (Hc : lr_of_side (sg_side sg) (l * sg_root_chord sg) (l * sg_tip_chord sg)
      = (l * fst (lr_of_side (sg_side sg) (sg_root_chord sg) (sg_tip_chord sg)), l * snd (lr_of_side (sg_side sg) (sg_root_chord sg) (sg_tip_chord sg)))).
    { unfold lr_of_side. destruct (sg_side sg); reflexivity. }
    rewrite Hc. destruct (lr_of_side (sg_side sg) (sg_root_chord sg) (sg_tip_chord sg)) as [cl cr]. cbn [fst snd].
    destruct (lr_of_side (sg_side sg) n0 (sg_washout sg)) as [wl wr].
    destruct (unit_vectors _ _ _ _) as [[ua un] us].
    destruct (lr_of_side (sg_side sg) (sg_root_af sg) (sg_tip_af sg)) as [al ar].
    destruct (section_control sg _) as [[flap cmd] [[[ma me] mr] mf]].
    cbv zeta. rewrite !interp_in, area_in. unfold sec_in.
    cbn [s_name s_sp s_sp1 s_sp2 s_r s_r1 s_r2 s_c s_c1 s_c2 s_dS s_cla s_al0 s_cma s_cml0 s_cd0 s_cd1 s_cd2 s_clmax s_washout s_mount s_dihedral s_sweep
         s_ua s_un s_us s_flap_eff s_mix_a s_mix_e s_mix_r s_mix_f s_cmd s_ic2].
    replace (l * l * l * n0) with (n0 : R) by (rnum; ring). reflexivity.
  Qed.
  Lemma ic2_in s : set_ic2 (sec_in s) = sec_in (set_ic2 s).
  Proof.
    unfold set_ic2, sec_in at 2.
    cbn [s_name s_sp s_sp1 s_sp2 s_r s_r1 s_r2 s_c s_c1 s_c2 s_dS s_cla s_al0 s_cma s_cml0 s_cd0 s_cd1 s_cd2 s_clmax s_washout s_mount s_dihedral s_sweep
         s_ua s_un s_us s_flap_eff s_mix_a s_mix_e s_mix_r s_mix_f s_cmd s_ic2].
    assert (E : integral_chord2 (sec_in s) = l * l * l * integral_chord2 s).
    { unfold integral_chord2. cbn [sec_in s_r1 s_r2 s_us s_c1 s_c2]. rewrite sub_l, vdot_scale_r. cbv zeta. rnum.
      rewrite Rabs_mult, (Rabs_pos_eq l) by lra. unfold Rdiv. ring. }
    rewrite E. reflexivity.
  Qed.

  (** *** The grid *)
  Definition grid_in (g : grid R) : grid R :=
    MkGrid (g_num g) (map (segment_in l) (g_segments g)) (g_slices g) (map sec_in (g_sections g)) (l * l * g_ref_area g).
  Lemma block_in c pl sg :
    segment_block c (plane_in l usys pl) (segment_in l sg) = match segment_block c pl sg with Ok b => Ok (map sec_in b) | Err e => Err e end.
  Proof.
    unfold segment_block. cbn [segment_in sg_num]. fold (segment_in l sg).
    destruct (c && Nat.eqb (sg_num sg) 0); [reflexivity|].
    replace (position_fuel (plane_in l usys pl)) with (position_fuel pl) by (unfold position_fuel; cbn [plane_in a_store]; now rewrite map_length).
    change (MkSegment _ _ _ _ _ _ _ _ _ _ _ _ _ _ _ _ _ _) with (segment_in l sg).
    rewrite !position_in. destruct (seg_position (position_fuel pl) pl sg "left_tip") as [a|]; cbn [rbind rscale]; [|reflexivity].
    destruct (seg_position (position_fuel pl) pl sg "right_tip") as [b|]; cbn [rbind rscale]; [|reflexivity].
    change (seg_control_span (segment_in l sg)) with (seg_control_span sg).
    destruct (seg_control_span sg) as [x y]. destruct (neqb (nsub y x) n0); [reflexivity|].
    f_equal. rewrite map_map. apply map_ext. intros i. apply make_section_in.
  Qed.
  Lemma write_map {A B} (f : A -> B) arr a b : write_block (map f arr) a (map f b) =
    match write_block arr a b with Ok x => Ok (map f x) | Err e => Err e end.
  Proof.
    unfold write_block. rewrite !map_length. destruct (Nat.leb _ _); [|reflexivity].
    rewrite !map_app, firstn_map, skipn_map. reflexivity.
  Qed.
  Lemma area_acc_in sg b acc : add_ref_area (segment_in l sg) (map sec_in b) (l * l * acc) = l * l * add_ref_area sg b acc.
  Proof.
    unfold add_ref_area. cbn [segment_in sg_is_main]. destruct (sg_is_main sg); [|reflexivity]. rewrite map_map.
    assert (E : nsum (map (fun x => s_dS (sec_in x)) b) = l * l * nsum (map (@s_dS R) b)).
    { induction b as [|x b IH]; cbn [map]; [rewrite !nsum_nil; ring|]. rewrite !nsum_cons, IH. cbn [sec_in s_dS]. ring. }
    rewrite E. rnum. ring.
  Qed.
  Lemma fill_in c pl : forall segs i sl arr area,
    fill c (plane_in l usys pl) (map (segment_in l) segs) i sl (map sec_in arr) (l * l * area) =
    match fill c pl segs i sl arr area with Ok (a, b, x) => Ok (a, map sec_in b, l * l * x) | Err e => Err e end.
  Proof.
    induction segs as [|sg segs IH]; intros i sl arr area; cbn [map fill]; [reflexivity|].
    rewrite block_in. destruct (segment_block c pl sg) as [b|e]; cbn [rbind]; [|reflexivity].
    rewrite write_map. destruct (write_block arr i b) as [arr'|e]; cbn [rbind]; [|reflexivity].
    rewrite area_acc_in, IH. reflexivity.
  Qed.
  Lemma zero_in : sec_in zero_section = zero_section.
  Proof.
    unfold zero_section, sec_in. cbn [s_name s_sp s_sp1 s_sp2 s_r s_r1 s_r2 s_c s_c1 s_c2 s_dS s_cla s_al0 s_cma s_cml0 s_cd0 s_cd1 s_cd2 s_clmax s_washout s_mount s_dihedral s_sweep
         s_ua s_un s_us s_flap_eff s_mix_a s_mix_e s_mix_r s_mix_f s_cmd s_ic2].
    assert (Z : vscale l (vzero : vec3 R) = vzero) by vring. rewrite Z.
    replace (l * n0) with (n0 : R) by (rnum; ring). replace (l * l * n0) with (n0 : R) by (rnum; ring).
    replace (l * l * l * n0) with (n0 : R) by (rnum; ring). reflexivity.
  Qed.
  Lemma lookup_in pl : lookup_wings (plane_in l usys pl) = map (wing_in l) (lookup_wings pl).
  Proof.
    unfold lookup_wings. cbn [plane_in a_wings a_store]. induction (a_wings pl) as [|[n i] ws IH]; [reflexivity|].
    cbn [flat_map snd]. rewrite IH, nth_error_map, map_app. destruct (nth_error (a_store pl) i); reflexivity.
  Qed.
  Lemma segments_in pl : wingsegments (plane_in l usys pl) = map (segment_in l) (wingsegments pl).
  Proof.
    unfold wingsegments. rewrite lookup_in. induction (lookup_wings pl) as [|w ws IH]; [reflexivity|].
    cbn [map flat_map]. rewrite IH, map_app. f_equal. unfold wing_segments, optl. cbn [wing_in w_side w_left w_right].
    destruct (w_side w), (w_left w), (w_right w); reflexivity.
  Qed.
  Lemma num_in pl : num_sections (plane_in l usys pl) = num_sections pl.
  Proof.
    unfold num_sections. rewrite lookup_in. generalize 0%nat. induction (lookup_wings pl) as [|w ws IH]; intros n; [reflexivity|].
    cbn [map fold_left].
    replace (wing_num_sections (wing_in l w)) with (wing_num_sections w); [apply IH|].
    unfold wing_num_sections, onum. cbn [wing_in w_side w_left w_right]. destruct (w_side w), (w_left w), (w_right w); reflexivity.
  Qed.
  Lemma make_grid_in c pl : make_grid c (plane_in l usys pl) = match make_grid c pl with Ok g => Ok (grid_in g) | Err e => Err e end.
  Proof.
    unfold make_grid. rewrite num_in, segments_in.
    assert (R0 : repeat zero_section (num_sections pl) = map sec_in (repeat zero_section (num_sections pl))).
    { induction (num_sections pl); cbn [repeat map]; [reflexivity|]. rewrite zero_in. congruence. }
    pose proof (fill_in c pl (wingsegments pl) 0 [] (repeat zero_section (num_sections pl)) n0) as HF.
    rewrite <- R0 in HF. replace (l * l * (n0 : R)) with (n0 : R) in HF by (rnum; ring). rewrite HF.
    destruct (fill c pl (wingsegments pl) 0 [] (repeat zero_section (num_sections pl)) n0) as [[[sl arr] area]|e]; cbn [rbind]; [|reflexivity].
    unfold grid_in. cbn [g_num g_segments g_slices g_sections g_ref_area]. f_equal. f_equal.
    rewrite !map_map. apply map_ext. intros. apply ic2_in.
  Qed.

  (** *** The flow *)
  Lemma state_get d d' key : state_in m k l d d' -> dget (an d') key = option_map (entry_in m k l key) (dget (an d) key).
  Proof. intros [H _]. apply H. Qed.
  Lemma state_rates d d' : state_in m k l d d' -> body_rates (an d') = vscale (k / l) (body_rates (an d)).
  Proof.
    intros H. unfold body_rates, entry, vscale. cbn [vx vy vz].
    rewrite !(state_get _ _ _ H). unfold entry_in. cbn [String.eqb Ascii.eqb Bool.eqb orb].
    apply vec_eq; cbn [vx vy vz]; match goal with |- context [dget (an d) ?q] => destruct (dget (an d) q) end;
      cbn [option_map]; rnum; ring.
  Qed.
  Lemma state_given d d' : state_in m k l d d' -> given_aero (Some d) -> given_aero (Some d').
  Proof.
    intros H (d0 & E & G). inversion E; subst d0. exists d'. split; auto. destruct H as [H1 H2]. destruct G as [G|G].
    - left. intros K. destruct (an d) as [|[key x] r] eqn:Ed; [congruence|].
      specialize (H1 key). rewrite K in H1. simpl in H1. rewrite String.eqb_refl in H1. discriminate.
    - right. rewrite H2. destruct (als d); simpl; congruence.
  Qed.
  Lemma base_flow_in n d d' : state_in m k l d d' ->
    base_flow n d' = match base_flow n d with
                     | Ok (v, u, rho) => Ok (map (vscale k) v, u, map (Rmult m) rho)
                     | Err e => Err e
                     end.
  Proof.
    intros H. unfold base_flow, entry. rewrite !(state_get _ _ _ H). destruct H as [_ H]. rewrite H. unfold entry_in.
    cbn [String.eqb Ascii.eqb Bool.eqb orb].
    replace (match option_map (fun x : R => x) (dget (an d) "alpha") with Some x => x | None => 0 end)
      with (match dget (an d) "alpha" with Some x => x | None => 0 end) by (destruct (dget (an d) "alpha"); reflexivity).
    replace (match option_map (fun x : R => x) (dget (an d) "beta") with Some x => x | None => 0 end)
      with (match dget (an d) "beta" with Some x => x | None => 0 end) by (destruct (dget (an d) "beta"); reflexivity).
    generalize (match dget (an d) "alpha" with Some x => x | None => 0 end) as al.
    generalize (match dget (an d) "beta" with Some x => x | None => 0 end) as be. intros be al.
    destruct (als d) as [rows|]; cbn [option_map].
    - rewrite broadcast_map. destruct (broadcast n rows) as [r|e]; cbn [rbind]; [|reflexivity].
      rewrite !map_map. cbn [fst snd]. f_equal. f_equal. f_equal.
      destruct (dget (an d) "V_mag") as [V|]; cbn [option_map].
      + now rewrite freestream_k, (unit_of_k k Hk).
      + rewrite <- (map_map snd (vscale k)), vmean_k. apply (unit_k k Hk).
    - destruct (dget (an d) "V_mag") as [V|]; cbn [option_map]; [|reflexivity].
      destruct (dget (an d) "rho") as [rho|]; cbn [option_map]; [|reflexivity].
      rewrite freestream_k, (unit_of_k k Hk).
      assert (E : forall {A B} (f : A -> B) n x, map f (repeat x n) = repeat (f x) n).
      { intros A B f q x; induction q; simpl; congruence. }
      rewrite !E. reflexivity.
  Qed.
  Lemma at_section_in w cg v sec : at_section (vscale (k / l) w) (vscale l cg) (vscale k v) (sec_in sec) = vscale k (at_section w cg v sec).
  Proof.
    unfold at_section. cbn [sec_in s_r]. rewrite sub_l, vcross_scale_l, vcross_scale_r, vscale_scale.
    replace (k / l * l) with k by (field; lra). rewrite vscale_sub. reflexivity.
  Qed.

  (** *** The cells *)
  Definition cell_in (c : cell R) : cell R :=
    MkCell (sec_in (c_sec c)) (vscale k (c_v c)) (m * c_rho c) (c_delta c) (c_eff c).
  Lemma cells_in (secs : list (section R)) : forall v rho d e,
    cells_of (map sec_in secs) (map (vscale k) v) (map (Rmult m) rho) d e = map cell_in (cells_of secs v rho d e).
  Proof.
    induction secs as [|s secs IH]; intros [|v0 v] [|r0 rho] [|d0 d] [|e0 e]; cbn [map cells_of]; auto.
    rewrite IH. reflexivity.
  Qed.
  Lemma bound_in same r1 r2 : bound_term same (vscale l r1) (vscale l r2) = vscale (/ l) (bound_term same r1 r2).
  Proof.
    unfold bound_term. cbv zeta. destruct same; [vring|].
    rewrite !norm_l, vcross_scale_l, vcross_scale_r, vdot_scale_l, vdot_scale_r, !vdivs_scale, !vscale_scale. f_equal. rnum.
    replace (l * vnorm r1 * (l * vnorm r2) * (l * vnorm r1 * (l * vnorm r2) + l * (l * vdot r1 r2)))
      with (l * l * (l * l) * (vnorm r1 * vnorm r2 * (vnorm r1 * vnorm r2 + vdot r1 r2))) by ring.
    rewrite Rinv_mult. generalize (/ (vnorm r1 * vnorm r2 * (vnorm r1 * vnorm r2 + vdot r1 r2))). intros z. field. lra.
  Qed.
  Lemma trail_in u r : trail_term u (vscale l r) = vscale (/ l) (trail_term u r).
  Proof.
    unfold trail_term. cbv zeta. rewrite norm_l, vcross_scale_r, vdot_scale_r, !vdivs_scale, !vscale_scale. f_equal. rnum.
    replace (l * vnorm r * (l * vnorm r - l * vdot u r)) with (l * l * (vnorm r * (vnorm r - vdot u r))) by ring.
    rewrite Rinv_mult. generalize (/ (vnorm r * (vnorm r - vdot u r))). intros z. field. lra.
  Qed.
  Lemma induced_in u same si sj : induced u same (sec_in si) (sec_in sj) = vscale (/ l) (induced u same si sj).
  Proof.
    unfold induced. cbv zeta. cbn [sec_in s_r s_r1 s_r2]. rewrite !sub_l, !trail_in, bound_in. vring.
  Qed.
  Lemma a_entry_in u same ci cj :
    a_entry u same (cell_in ci) (cell_in cj) = k * l * a_entry u same ci cj.
  Proof.
    unfold a_entry, cell_in. cbn [c_v c_sec]. rewrite induced_in. cbn [sec_in s_un s_cla s_r1 s_r2 s_dS].
    rewrite sub_l, vcross_scale_l, vcross_scale_r, !(norm_k k Hk), norm_l, vdot_scale_r. cbv zeta.
    assert (E : forall x, l * l * x * (/ l) = l * x) by (intros; field; lra).
    destruct same; rnum.
    - match goal with |- - (k * ?a) * (l * l * ?b) * ?c * (/ l * ?d) + _ = _ =>
        replace (- (k * a) * (l * l * b) * c * (/ l * d)) with (k * l * (- a * b * c * d)) by (field; lra) end. ring.
    - match goal with |- - (k * ?a) * (l * l * ?b) * ?c * (/ l * ?d) = _ =>
        replace (- (k * a) * (l * l * b) * c * (/ l * d)) with (k * l * (- a * b * c * d)) by (field; lra) end. ring.
  Qed.
  Lemma a_matrix_in u cs : a_matrix u (map cell_in cs) = map (map (Rmult (k * l))) (a_matrix u cs).
  Proof.
    unfold a_matrix. rewrite mapi_map, map_mapi. unfold mapi. apply mapi_from_ext. intros i ci.
    fold (mapi (fun j cj => a_entry u (i =? j)%nat (cell_in ci) cj) (map cell_in cs)).
    rewrite mapi_map.
    change (mapi_from (fun j cj => a_entry u (i =? j)%nat ci cj) 0 cs) with (mapi (fun j cj => a_entry u (i =? j)%nat ci cj) cs).
    rewrite map_mapi. unfold mapi. apply mapi_from_ext. intros. apply a_entry_in.
  Qed.
  Lemma b_entry_in c : b_entry (cell_in c) = k * l * (k * l) * b_entry c.
  Proof.
    unfold b_entry, eff_flap, cell_in. cbn [c_v c_sec c_eff c_delta]. cbn [sec_in s_un s_ua s_cla s_al0 s_sp s_dS s_flap_eff].
    rewrite (norm_k k Hk), !vdot_scale_l. rnum. rewrite (ratio_k k Hk). ring.
  Qed.
  Lemma solver_in ls u cs : exact_solver ls ->
    ls (a_matrix u (map cell_in cs)) (map b_entry (map cell_in cs))
    = option_map (map (Rmult (k * l))) (ls (a_matrix u cs) (map b_entry cs)).
  Proof.
    assert (Hkl : 0 < k * l) by (apply Rmult_lt_0_compat; assumption).
    intros He. destruct (a_matrix_square u cs) as [S1 L1]. destruct (a_matrix_square u (map cell_in cs)) as [S2 L2].
    pose proof (He _ (map b_entry cs) S1) as P1. pose proof (He _ (map b_entry (map cell_in cs)) S2) as P2.
    rewrite map_length in P1, P2. specialize (P1 (eq_sym L1)). specialize (P2 (eq_sym L2)).
    assert (Eb : map b_entry (map cell_in cs) = map (Rmult (k * l * (k * l))) (map b_entry cs)).
    { rewrite !map_map. apply map_ext. intros; apply b_entry_in. }
    rewrite Eb, a_matrix_in in *.
    destruct (ls (a_matrix u cs) (map b_entry cs)) as [x|], (ls (map (map (Rmult (k * l))) (a_matrix u cs)) _) as [y|]; cbn [option_map]; auto.
    - apply (unique_scaled (k * l) Hkl) in P1. f_equal. destruct P1 as [P1 _], P2 as [_ P2]. symmetry. now apply P2.
    - exfalso. apply P2. eexists. apply (unique_scaled (k * l) Hkl). exact P1.
    - exfalso. apply P1. eexists. apply (unique_unscaled (k * l) Hkl). exact P2.
  Qed.

  (** *** The loads *)
  Lemma total_velocity_in u cs gam i ci :
    total_velocity u (map cell_in cs) (map (Rmult (k * l)) gam) i (cell_in ci)
    = vscale k (total_velocity u cs gam i ci).
  Proof.
    unfold total_velocity. rewrite vscale_add, <- vsum_scale, mapi_map. cbn [cell_in c_v c_sec]. f_equal. f_equal.
    replace (mapi (fun j x => induced u (Nat.eqb i j) (sec_in (c_sec ci)) (sec_in (c_sec x))) cs)
      with (map (vscale (/ l)) (mapi (fun j cj => induced u (Nat.eqb i j) (c_sec ci) (c_sec cj)) cs)).
    2:{ rewrite map_mapi. unfold mapi. apply mapi_from_ext. intros. symmetry. apply induced_in. }
    generalize (mapi (fun j cj => induced u (Nat.eqb i j) (c_sec ci) (c_sec cj)) cs). intros ws. revert ws.
    induction gam as [|y gam IH]; intros [|w ws]; cbn [map map2]; auto. rewrite IH, !vscale_scale. f_equal. f_equal. field. lra.
  Qed.
  Definition sol_in (x : cell_sol R) : cell_sol R :=
    let q := m * (k * k) * (l * l) in
    MkSol (vscale k (so_vi x)) (so_alpha x) (so_cl x) (so_cd x) (so_cm x) (vscale q (so_force x))
          (vscale q (so_par x)) (vscale (q * l) (so_moment x)) (vscale (q * l) (so_moment_par x)).
  Lemma solve_cell_in cg y vi c :
    solve_cell (vscale l cg) (k * l * y) (vscale k vi) (cell_in c) = sol_in (solve_cell cg y vi c).
  Proof.
    unfold solve_cell. cbv zeta. unfold cell_in. cbn [c_sec c_v c_rho c_delta].
    change (section_cl (sec_in (c_sec c))) with (section_cl (c_sec c)).
    change (section_cd (sec_in (c_sec c))) with (section_cd (c_sec c)).
    change (section_cm (sec_in (c_sec c))) with (section_cm (c_sec c)).
    cbn [sec_in s_un s_ua s_us s_r s_r1 s_r2 s_dS s_ic2]. rewrite !sub_l.
    rewrite !vdot_scale_l. change natan2 with Ratan2. change (@nmul R Rnum) with Rmult. rewrite (atan2_k k Hk), !(norm_k k Hk).
    set (al := Ratan2 _ _). set (cl := section_cl _ al). set (cd := section_cd _ cl _). set (cm := section_cm _ al _).
    set (s := c_sec c).
    set (f := vscale (c_rho c * y) (vcross vi (vsub (s_r2 s) (s_r1 s)))).
    assert (Ef : vscale (m * c_rho c * (k * l * y)) (vcross (vscale k vi) (vscale l (vsub (s_r2 s) (s_r1 s)))) = vscale (m * (k * k) * (l * l)) f).
    { unfold f. rewrite vcross_scale_l, vcross_scale_r, !vscale_scale. f_equal. ring. }
    rewrite Ef.
    match goal with |- context [vdivs (vscale ?a (vscale k vi)) (k * vnorm vi)] =>
      assert (Ep : vdivs (vscale a (vscale k vi)) (k * vnorm vi)
        = vscale (m * (k * k) * (l * l)) (vdivs (vscale (ndec 5 1 * c_rho c * vnorm (c_v c) * vnorm (c_v c) * cd * s_dS s) vi) (vnorm vi))) end.
    { rewrite !vdivs_scale, !vscale_scale. f_equal. rnum. rewrite Rinv_mult. generalize (/ vnorm vi). intros i. field. lra. }
    rewrite Ep. unfold sol_in. cbn [so_vi so_alpha so_cl so_cd so_cm so_force so_par so_moment so_moment_par].
    rewrite !vcross_scale_l, !vcross_scale_r, !vscale_scale.
    replace (l * (m * (k * k) * (l * l))) with (m * (k * k) * (l * l) * l) by ring.
    f_equal. rewrite vscale_add, vscale_scale. f_equal. f_equal. rnum. ring.
  Qed.
  Lemma solve_cells_in u cg cs gam :
    solve_cells u (vscale l cg) (map cell_in cs) (map (Rmult (k * l)) gam) = map sol_in (solve_cells u cg cs gam).
  Proof.
    unfold solve_cells.
    assert (G : forall all gall cs gam i,
      solve_cells_from u (vscale l cg) (map cell_in all) (map (Rmult (k * l)) gall) i (map cell_in cs) (map (Rmult (k * l)) gam)
      = map sol_in (solve_cells_from u cg all gall i cs gam)).
    { intros all gall. induction cs0 as [|c cs0 IH]; intros [|y g0] i; cbn [map solve_cells_from]; auto.
      rewrite IH, total_velocity_in, solve_cell_in. reflexivity. }
    apply G.
  Qed.
  Lemma make_fm_in u F M q : make_fm u (vscale q F) (vscale (q * l) M) =
    let f := make_fm u F M in MkFM (q * FL f) (q * FD f) (q * FS f) (q * FX f) (q * FY f) (q * FZ f) (q * l * MX f) (q * l * MY f) (q * l * MZ f).
  Proof. unfold make_fm. rewrite wind_axes_scale. destruct (wind_axes u F) as [[? ?] ?]. reflexivity. Qed.
  Lemma fm_q f : fm_in m k l f = let q := m * (k * k) * (l * l) in
    MkFM (q * FL f) (q * FD f) (q * FS f) (q * FX f) (q * FY f) (q * FZ f) (q * l * MX f) (q * l * MY f) (q * l * MZ f).
  Proof. unfold fm_in. cbv zeta. replace (m * k ^ 2 * l ^ 2) with (m * (k * k) * (l * l)) by ring. reflexivity. Qed.
  Lemma assemble_in u sols :
    let a := assemble u sols in let a' := assemble u (map sol_in sols) in
    r_inviscid a' = fm_in m k l (r_inviscid a) /\ r_viscous a' = fm_in m k l (r_viscous a) /\
    r_total a' = fm_in m k l (r_total a).
  Proof.
    intros a a'. unfold a, a', assemble. cbn [r_inviscid r_viscous r_total r_LoD]. rewrite !fm_q.
    set (q := m * (k * k) * (l * l)).
    rewrite !make_fm_add, !map_map. cbn [sol_in so_force so_par so_moment so_moment_par]. fold q.
    assert (V : forall c (f : cell_sol R -> vec3 R), vsum (map (fun x => vscale c (f x)) sols) = vscale c (vsum (map f sols))).
    { intros c f. rewrite <- vsum_scale, map_map. reflexivity. }
    rewrite (V q (@so_force R)), (V q (@so_par R)), (V _ (@so_moment R)), (V _ (@so_moment_par R)), <- !vscale_add, !make_fm_in. auto.
  Qed.

  (** *** Histories that agree: the same control deflections and section results *)
  Definition ll_rel (s s' : ll_state R) : Prop :=
    l_delta s' = l_delta s /\ l_eff s' = l_eff s /\ l_alphas s' = l_alphas s /\
    l_forces s' = option_map (map (vscale (m * k ^ 2 * l ^ 2))) (l_forces s) /\
    l_cl s' = l_cl s /\ l_cd s' = l_cd s /\ l_cm s' = l_cm s.
  Definition kept (s s' : ll_state R) : Prop :=
    l_delta s' = l_delta s /\ l_eff s' = l_eff s /\ l_alphas s' = l_alphas s /\ l_forces s' = l_forces s /\
    l_cl s' = l_cl s /\ l_cd s' = l_cd s /\ l_cm s' = l_cm s.
  Lemma process_aero_kept (g : grid R) cg a s : kept s (snd (process_aero g cg a s)).
  Proof.
    unfold process_aero, kept. destruct (opt_truthy aero_truthy a) as [d|].
    2:{ unfold smod. cbn. auto 10. }
    unfold sbind, smod, sret, sraise, slift, superimpose_rotation.
    destruct (als d) as [rows|].
    - destruct (broadcast (g_num g) rows); [|cbn; auto 10].
      destruct (dget (an d) "V_mag"), (has_rates (an d)); cbn; auto 10.
    - destruct (dget (an d) "V_mag"), (dget (an d) "rho"); try (cbn; auto 10; fail). destruct (has_rates (an d)); cbn; auto 10.
  Qed.
  Lemma kept_rel s s' t t' : ll_rel s s' -> kept s t -> kept s' t' -> ll_rel t t'.
  Proof.
    intros (a1 & a2 & a3 & a4 & a5 & a6 & a7) (b1 & b2 & b3 & b4 & b5 & b6 & b7) (c1 & c2 & c3 & c4 & c5 & c6 & c7).
    unfold ll_rel. repeat split; congruence.
  Qed.
  Lemma ll_solve_in ls g cg stype d d' c s s' : exact_solver ls -> g_num g = List.length (g_sections g) ->
    given_aero (Some d) -> state_in m k l d d' -> ll_rel s s' ->
    let a := ll_solve ls g cg stype (Some d) c s in
    let a' := ll_solve ls (grid_in g) (vscale l cg) stype (Some d') c s' in
    fst a' = fst a /\ ll_rel (snd a) (snd a') /\
    forall r, fst a = Ok r ->
      exists res res', l_results (snd a) = Some res /\ l_results (snd a') = Some res' /\
        r_inviscid res' = fm_in m k l (r_inviscid res) /\
        r_viscous res' = fm_in m k l (r_viscous res) /\
        r_total res' = fm_in m k l (r_total res).
  Proof.
    intros He Hn Ha Hsc Hrel. cbv zeta.
    pose proof (process_aero_base g cg d s Hn Ha) as P.
    assert (Hn' : g_num (grid_in g) = List.length (g_sections (grid_in g))) by (cbn [grid_in g_num g_sections]; now rewrite map_length).
    pose proof (process_aero_base (grid_in g) (vscale l cg) d' s' Hn' (state_given _ _ Hsc Ha)) as P'.
    change (g_num (grid_in g)) with (g_num g) in P'. rewrite (base_flow_in _ _ _ Hsc), (state_rates _ _ Hsc) in P'.
    pose proof (process_aero_kept g cg (Some d) s) as K. pose proof (process_aero_kept (grid_in g) (vscale l cg) (Some d') s') as K'.
    unfold ll_solve, sbind.
    destruct (base_flow (g_num g) d) as [[[v u] rho]|e].
    2:{ rewrite P, P'. split; [reflexivity|]. split; [exact Hrel|]. intros r Hr. discriminate Hr. }
    destruct P as (s1 & P & A1 & A2 & A3 & _). destruct P' as (s2 & P' & B1 & B2 & B3 & _).
    rewrite P in K |- *. rewrite P' in K' |- *. cbn [snd] in K, K'.
    pose proof (kept_rel _ _ _ _ Hrel K K') as R1. clear K K' P P' Hrel.
    assert (Ev : l_v s2 = map (vscale k) (l_v s1)).
    { rewrite A1, B1. cbn [grid_in g_sections]. clear -Hl Hk. revert v. induction (g_sections g) as [|sec r IH]; intros [|v0 v]; cbn [map map2]; auto.
      rewrite IH, at_section_in. reflexivity. }
    assert (Er : l_rho s2 = map (Rmult m) (l_rho s1)) by congruence.
    assert (Eu : l_uinf s2 = l_uinf s1) by congruence.
    clear A1 A2 A3 B1 B2 B3.
    assert (I2 : fst (process_control g c s1) = Ok tt /\ fst (process_control (grid_in g) c s2) = Ok tt /\
                 cells (grid_in g) (snd (process_control (grid_in g) c s2)) = map cell_in (cells g (snd (process_control g c s1))) /\
                 l_uinf (snd (process_control (grid_in g) c s2)) = l_uinf (snd (process_control g c s1)) /\
                 ll_rel (snd (process_control g c s1)) (snd (process_control (grid_in g) c s2))).
    { unfold process_control, cells. destruct (opt_truthy dtruthy c) as [c0|].
      - unfold smod; cbn [fst snd set_control l_v l_rho l_delta l_eff l_uinf].
        rewrite Ev, Er, Eu. cbn [grid_in g_sections].
        replace (map (section_delta c0) (map sec_in (g_sections g))) with (map (section_delta c0) (g_sections g)) by (rewrite map_map; reflexivity).
        rewrite cells_in. destruct R1 as (_ & _ & r3 & r4 & r5 & r6 & r7). unfold ll_rel.
        cbn [set_control l_delta l_eff l_alphas l_forces l_cl l_cd l_cm]. auto 15.
      - unfold sret. cbn [fst snd]. destruct R1 as (r1 & r2 & R1). rewrite r1, r2, Ev, Er, Eu. cbn [grid_in g_sections].
        rewrite cells_in. unfold ll_rel. auto 15. }
    clear R1. destruct I2 as (E1 & E2 & Ec & Eu2 & R1).
    destruct (process_control g c s1) as [o1 t1], (process_control (grid_in g) c s2) as [o2 t2]. cbn [fst snd] in *. subst o1 o2.
    destruct (String.eqb stype "linear"); [|split; [reflexivity|]; split; [exact R1|]; intros r Hr; discriminate Hr].
    unfold linear_solve. rewrite Ec, Eu2, (solver_in _ _ _ He).
    destruct (ls (a_matrix (l_uinf t1) (cells g t1)) (map b_entry (cells g t1))) as [gam|]; cbn [option_map fst snd].
    2:{ split; [reflexivity|]. split; [exact R1|]. intros r Hr. discriminate Hr. }
    split; [reflexivity|]. rewrite solve_cells_in. split.
    - destruct R1 as (r1 & r2 & _). unfold ll_rel. cbn [l_delta l_eff l_alphas l_forces l_cl l_cd l_cm option_map].
      rewrite !map_map. cbn [sol_in so_alpha so_force so_cl so_cd so_cm].
      replace (m * k ^ 2 * l ^ 2) with (m * (k * k) * (l * l)) by ring. auto 10.
    - intros r _. eexists _, _. split; [reflexivity|]. split; [reflexivity|]. apply assemble_in.
  Qed.
End Units.
