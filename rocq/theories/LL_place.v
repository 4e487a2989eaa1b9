(** Displacing an airplane: the grid, the propellers and their solutions (C75). *)
From Coq Require Import Reals ZArith String Bool Arith Lia Lra List FunctionalExtensionality.
From Verif Require Import Base Num RVec Geometry Grid LLModel PropModel Grid_facts Spec_Grid Spec_LL LL_state LL_R LL_solve Grid_thm LL_props LL_thm LL_scale Spec_Geom MU Spec_Place LL_units.
Import ListNotations.
Local Open Scope string_scope.
Local Open Scope R_scope.

Section Place.
  Variable x : vec3 R.
  Lemma sub_at (a b : vec3 R) : vsub (vadd a x) (vadd b x) = vsub a b.
  Proof. vring. Qed.

  (** *** Positions *)
  Definition rshift (r : res (vec3 R)) : res (vec3 R) := match r with Ok v => Ok (vadd v x) | Err e => Err e end.
  Lemma local_left_at s : seg_local_left (move_segment x s) = vadd (seg_local_left s) x.
  Proof.
    unfold seg_local_left. cbn [move_segment sg_side sg_delta sg_sweep sg_dihedral sg_span sg_yoffset].
    destruct (sg_side s); apply vec_eq; unfold vadd; cbn [vx vy vz]; rnum; unfold Rdiv; ring.
  Qed.
  Lemma local_right_at s : seg_local_right (move_segment x s) = vadd (seg_local_right s) x.
  Proof.
    unfold seg_local_right. cbn [move_segment sg_side sg_delta sg_sweep sg_dihedral sg_span sg_yoffset].
    destruct (sg_side s); apply vec_eq; unfold vadd; cbn [vx vy vz]; rnum; unfold Rdiv; ring.
  Qed.
  Lemma position_at f pl : forall s at_, seg_position f (plane_at x pl) (segment_at x s) at_ = rshift (seg_position f pl s at_).
  Proof.
    induction f as [|f IH]; intros s at_; [reflexivity|]. rewrite !position_S.
    assert (V : forall a b, vadd (vadd a x) b = vadd (vadd a b) x) by (intros; vring).
    assert (V' : forall a b, vadd a (vadd b x) = vadd (vadd a b) x) by (intros; vring).
    destruct (sg_parent s) as [| |id] eqn:Ep.
    - assert (E : segment_at x s = move_segment x s) by (unfold segment_at; now rewrite Ep). rewrite E.
      assert (P : parent_pos f (plane_at x pl) (move_segment x s) = parent_pos f pl s).
      { unfold parent_pos. cbn [move_segment sg_parent]. rewrite Ep. reflexivity. }
      rewrite P, local_left_at, local_right_at. unfold parent_pos. rewrite Ep. cbn [rbind].
      destruct (String.eqb at_ "left_tip"); [|destruct (String.eqb at_ "right_tip")]; cbn [rshift]; rewrite ?V; reflexivity.
    - assert (E : segment_at x s = move_segment x s) by (unfold segment_at; now rewrite Ep). rewrite E.
      assert (P : parent_pos f (plane_at x pl) (move_segment x s) = parent_pos f pl s).
      { unfold parent_pos. cbn [move_segment sg_parent]. rewrite Ep. reflexivity. }
      rewrite P, local_left_at, local_right_at. unfold parent_pos. rewrite Ep. cbn [rbind].
      destruct (String.eqb at_ "left_tip"); [|destruct (String.eqb at_ "right_tip")]; cbn [rshift]; rewrite ?V; reflexivity.
    - assert (E : segment_at x s = s) by (unfold segment_at; now rewrite Ep). rewrite E.
      assert (P : parent_pos f (plane_at x pl) s = rshift (parent_pos f pl s)).
      { unfold parent_pos. rewrite Ep. cbn [plane_at a_store]. rewrite nth_error_map.
        destruct (nth_error (a_store pl) id) as [w|]; cbn [option_map]; [|reflexivity].
        destruct (String.eqb (sg_connect_at s) "left_tip").
        + cbn [wing_at w_left]. destruct (w_left w); cbn [option_map]; [apply IH|reflexivity].
        + destruct (String.eqb (sg_connect_at s) "right_tip"); [|reflexivity].
          cbn [wing_at w_right]. destruct (w_right w); cbn [option_map]; [apply IH|reflexivity]. }
      rewrite P. destruct (String.eqb at_ "left_tip"); [|destruct (String.eqb at_ "right_tip"); [|reflexivity]];
        (destruct (parent_pos f pl s); cbn [rbind rshift]; [now rewrite V'|reflexivity]).
  Qed.

  (** *** Sections *)
  Definition sec_at (s : section R) : section R :=
    MkSection (s_name s) (s_sp s) (s_sp1 s) (s_sp2 s) (vadd (s_r s) x) (vadd (s_r1 s) x) (vadd (s_r2 s) x)
      (s_c s) (s_c1 s) (s_c2 s) (s_dS s) (s_cla s) (s_al0 s) (s_cma s) (s_cml0 s)
      (s_cd0 s) (s_cd1 s) (s_cd2 s) (s_clmax s) (s_washout s) (s_mount s)
      (s_dihedral s) (s_sweep s) (s_ua s) (s_un s) (s_us s) (s_flap_eff s)
      (s_mix_a s) (s_mix_e s) (s_mix_r s) (s_mix_f s) (s_cmd s) (s_ic2 s).
  Lemma point_at a b s : segment_point (vadd a x) (vadd b x) s = vadd (segment_point a b s) x.
  Proof.
    unfold segment_point, unit_s. rewrite sub_at. cbv zeta.
    generalize (vdivs (vsub b a) (vnorm (vsub b a))). intros u.
    apply vec_eq; unfold vadd, vscale; cbn [vx vy vz]; rnum; ring.
  Qed.
  Lemma make_section_at c sg a b i : make_section c (segment_at x sg) (vadd a x) (vadd b x) i = sec_at (make_section c sg a b i).
  Proof.
    replace (make_section c (segment_at x sg) (vadd a x) (vadd b x) i) with (make_section c sg (vadd a x) (vadd b x) i)
      by (unfold segment_at; destruct (sg_parent sg); reflexivity).
    unfold make_section. rewrite !point_at.
    destruct (lr_of_side (sg_side sg) (sg_root_chord sg) (sg_tip_chord sg)) as [cl cr].
    destruct (lr_of_side (sg_side sg) n0 (sg_washout sg)) as [wl wr].
    destruct (unit_vectors _ _ _ _) as [[ua un] us].
    destruct (lr_of_side (sg_side sg) (sg_root_af sg) (sg_tip_af sg)) as [al ar].
    destruct (section_control sg _) as [[flap cmd] [[[ma me] mr] mf]].
    cbv zeta. unfold section_area. rewrite sub_at. reflexivity.
  Qed.
  Lemma ic2_at s : set_ic2 (sec_at s) = sec_at (set_ic2 s).
  Proof.
    assert (E : integral_chord2 (sec_at s) = integral_chord2 s).
    { unfold integral_chord2. cbn [sec_at s_r1 s_r2 s_us s_c1 s_c2]. now rewrite sub_at. }
    unfold set_ic2. rewrite E. reflexivity.
  Qed.

  (** *** The grid *)
  Definition grid_at (g : grid R) : grid R :=
    MkGrid (g_num g) (map (segment_at x) (g_segments g)) (g_slices g) (map sec_at (g_sections g)) (g_ref_area g).
  Lemma num_seg_at sg : sg_num (segment_at x sg) = sg_num sg.
  Proof. unfold segment_at. destruct (sg_parent sg); reflexivity. Qed.
  Lemma block_at c pl sg :
    segment_block c (plane_at x pl) (segment_at x sg) = match segment_block c pl sg with Ok b => Ok (map sec_at b) | Err e => Err e end.
  Proof.
    unfold segment_block. rewrite num_seg_at.
    destruct (c && Nat.eqb (sg_num sg) 0); [reflexivity|].
    replace (position_fuel (plane_at x pl)) with (position_fuel pl) by (unfold position_fuel; cbn [plane_at a_store]; now rewrite map_length).
    rewrite !position_at. destruct (seg_position (position_fuel pl) pl sg "left_tip") as [a|]; cbn [rbind rshift]; [|reflexivity].
    destruct (seg_position (position_fuel pl) pl sg "right_tip") as [b|]; cbn [rbind rshift]; [|reflexivity].
    assert (Ec : seg_control_span (segment_at x sg) = seg_control_span sg) by (unfold segment_at; destruct (sg_parent sg); reflexivity).
    rewrite Ec. destruct (seg_control_span sg) as [y z]. destruct (neqb (nsub z y) n0); [reflexivity|].
    f_equal. rewrite map_map. apply map_ext. intros i. apply make_section_at.
  Qed.
  Lemma area_acc_at sg b acc : add_ref_area (segment_at x sg) (map sec_at b) acc = add_ref_area sg b acc.
  Proof.
    unfold add_ref_area. assert (Em : sg_is_main (segment_at x sg) = sg_is_main sg) by (unfold segment_at; destruct (sg_parent sg); reflexivity).
    rewrite Em, map_map. reflexivity.
  Qed.
  (** the part of the table written so far is displaced, the rest holds the same zeros *)
  Lemma fill_at c pl : forall segs sl P Q area,
    match fill c pl segs (List.length P) sl (P ++ Q) area,
          fill c (plane_at x pl) (map (segment_at x) segs) (List.length P) sl (map sec_at P ++ Q) area with
    | Ok (s1, a1, r1), Ok (s2, a2, r2) => s2 = s1 /\ r2 = r1 /\
        exists P1 Q1, a1 = (P1 ++ Q1)%list /\ a2 = (map sec_at P1 ++ Q1)%list /\
          List.length P1 = (List.length P + list_sum (map (@sg_num R) segs))%nat /\ List.length a1 = List.length (P ++ Q)
    | Err e, Err e' => e = e'
    | _, _ => False
    end.
  Proof.
    induction segs as [|sg segs IH]; intros sl P Q area; cbn [map fill].
    - split; [reflexivity|]. split; [reflexivity|]. exists P, Q. repeat split; auto.
    - rewrite block_at, num_seg_at. destruct (segment_block c pl sg) as [b|e] eqn:Eb; cbn [rbind]; [|reflexivity].
      pose proof (segment_block_length _ _ _ Eb) as Lb.
      unfold write_block. rewrite !app_length, !map_length.
      destruct (Nat.leb_spec (List.length P + List.length b) (List.length P + List.length Q)) as [K|K]; cbn [rbind]; [|reflexivity].
      assert (F1 : firstn (List.length P) (P ++ Q) = P) by (rewrite firstn_app, Nat.sub_diag, firstn_all; cbn [firstn]; apply app_nil_r).
      assert (F2 : firstn (List.length P) (map sec_at P ++ Q) = map sec_at P).
      { rewrite <- (map_length sec_at P) at 1. rewrite firstn_app, Nat.sub_diag, firstn_all. cbn [firstn]. apply app_nil_r. }
      assert (S1 : skipn (List.length P + List.length b) (P ++ Q) = skipn (List.length b) Q).
      { rewrite skipn_app, skipn_all2 by lia. cbn [app]. f_equal. lia. }
      assert (S2 : skipn (List.length P + List.length b) (map sec_at P ++ Q) = skipn (List.length b) Q).
      { rewrite skipn_app, skipn_all2 by (rewrite map_length; lia). cbn [app]. f_equal. rewrite map_length. lia. }
      rewrite F1, F2, S1, S2, area_acc_at.
      replace (P ++ b ++ skipn (List.length b) Q)%list with ((P ++ b) ++ skipn (List.length b) Q)%list by now rewrite app_assoc.
      replace (map sec_at P ++ map sec_at b ++ skipn (List.length b) Q)%list with (map sec_at (P ++ b) ++ skipn (List.length b) Q)%list
        by now rewrite map_app, app_assoc.
      replace (List.length P + sg_num sg)%nat with (List.length (P ++ b)) by (rewrite app_length; lia).
      specialize (IH (sl ++ [(List.length P, List.length (P ++ b))])%list (P ++ b)%list (skipn (List.length b) Q) (add_ref_area sg b area)).
      match type of IH with match ?p with _ => _ end => destruct p as [[[s1 a1] r1]|e1] end;
      match goal with |- match ?p with _ => _ end => destruct p as [[[s2 a2] r2]|e2] end; auto.
      destruct IH as (I1 & I2 & P1 & Q1 & I3 & I4 & I5 & I6). split; [exact I1|]. split; [exact I2|].
      exists P1, Q1. split; [exact I3|]. split; [exact I4|]. rewrite app_length in I5. split.
      + change (list_sum (sg_num sg :: map (@sg_num R) segs)) with (sg_num sg + list_sum (map (@sg_num R) segs))%nat. lia.
      + rewrite I6, !app_length, skipn_length. lia.
  Qed.
  Lemma lookup_at pl : lookup_wings (plane_at x pl) = map (wing_at x) (lookup_wings pl).
  Proof.
    unfold lookup_wings. cbn [plane_at a_wings a_store]. induction (a_wings pl) as [|[n i] ws IH]; [reflexivity|].
    cbn [flat_map snd]. rewrite IH, nth_error_map, map_app. destruct (nth_error (a_store pl) i); reflexivity.
  Qed.
  Lemma segments_at pl : wingsegments (plane_at x pl) = map (segment_at x) (wingsegments pl).
  Proof.
    unfold wingsegments. rewrite lookup_at. induction (lookup_wings pl) as [|w ws IH]; [reflexivity|].
    cbn [map flat_map]. rewrite IH, map_app. f_equal. unfold wing_segments, optl. cbn [wing_at w_side w_left w_right].
    destruct (w_side w), (w_left w), (w_right w); reflexivity.
  Qed.
  Lemma num_at pl : num_sections (plane_at x pl) = num_sections pl.
  Proof. rewrite !num_sections_sum, segments_at, map_map. f_equal. apply map_ext. intros; apply num_seg_at. Qed.
  Lemma make_grid_at c pl : make_grid c (plane_at x pl) = match make_grid c pl with Ok g => Ok (grid_at g) | Err e => Err e end.
  Proof.
    unfold make_grid. rewrite num_at, segments_at.
    pose proof (fill_at c pl (wingsegments pl) [] [] (repeat zero_section (num_sections pl)) n0) as K.
    cbn [List.length app map] in K.
    destruct (fill c pl (wingsegments pl) 0 [] (repeat zero_section (num_sections pl)) n0) as [[[s1 a1] r1]|e];
    destruct (fill c (plane_at x pl) (map (segment_at x) (wingsegments pl)) 0 [] (repeat zero_section (num_sections pl)) n0) as [[[s2 a2] r2]|e'];
      cbn [rbind]; try contradiction.
    2:{ now rewrite K. }
    destruct K as (-> & -> & P & Q & -> & -> & L1 & L2). rewrite repeat_length, app_length, num_sections_sum in L2.
    destruct Q; [|cbn [List.length] in L2; lia]. rewrite !app_nil_r.
    unfold grid_at. cbn [g_num g_segments g_slices g_sections g_ref_area]. f_equal. f_equal.
    rewrite !map_map. apply map_ext. intros. apply ic2_at.
  Qed.

  (** *** The lifting-line solution *)
  Lemma rotation_at g cg a s : superimpose_rotation (grid_at g) (vadd cg x) a s = superimpose_rotation g cg a s.
  Proof.
    unfold superimpose_rotation. f_equal. cbn [grid_at g_sections]. generalize (l_v s). induction (g_sections g) as [|y l IH]; intros [|v vs]; cbn [map map2]; auto.
    rewrite IH. cbn [sec_at s_r]. now rewrite sub_at.
  Qed.
  Lemma process_aero_at g cg a s : process_aero (grid_at g) (vadd cg x) a s = process_aero g cg a s.
  Proof.
    unfold process_aero. destruct (opt_truthy aero_truthy a) as [d|]; [|reflexivity].
    cbn [grid_at g_num]. fold (grid_at g). unfold sbind at 1 3.
    match goal with |- match ?p with _ => _ end = match ?q with _ => _ end => change q with p; destruct p as [[y|e] s'] end; [|reflexivity].
    destruct (has_rates (an d)); [|reflexivity]. unfold smod. now rewrite rotation_at.
  Qed.
  Lemma process_control_at g c : process_control (grid_at g) c = process_control g c.
  Proof.
    unfold process_control. destruct (opt_truthy dtruthy c) as [d|]; [|reflexivity]. unfold smod. cbn [grid_at g_sections].
    apply functional_extensionality. intros s. rewrite map_map. reflexivity.
  Qed.
  Definition cell_at (c : cell R) : cell R := MkCell (sec_at (c_sec c)) (c_v c) (c_rho c) (c_delta c) (c_eff c).
  Lemma cells_at g s : cells (grid_at g) s = map cell_at (cells g s).
  Proof.
    unfold cells. cbn [grid_at g_sections]. generalize (l_v s), (l_rho s), (l_delta s), (l_eff s).
    induction (g_sections g) as [|y secs IH]; intros [|v0 v] [|r0 rho] [|d0 d] [|e0 e]; cbn [map cells_of]; auto.
    rewrite IH. reflexivity.
  Qed.
  Lemma induced_at u same si sj : induced u same (sec_at si) (sec_at sj) = induced u same si sj.
  Proof. unfold induced. cbn [sec_at s_r s_r1 s_r2]. now rewrite !sub_at. Qed.
  Lemma a_matrix_at u cs : a_matrix u (map cell_at cs) = a_matrix u cs.
  Proof.
    unfold a_matrix. rewrite mapi_map. unfold mapi. apply mapi_from_ext. intros i ci.
    fold (mapi (fun j cj => a_entry u (i =? j)%nat (cell_at ci) cj) (map cell_at cs)). rewrite mapi_map.
    unfold mapi. apply mapi_from_ext. intros j cj. unfold a_entry. cbn [cell_at c_v c_sec]. rewrite induced_at.
    cbn [sec_at s_dS s_cla s_un s_r1 s_r2]. now rewrite sub_at.
  Qed.
  Lemma b_entries_at cs : map b_entry (map cell_at cs) = map b_entry cs.
  Proof. rewrite map_map. reflexivity. Qed.
  Lemma total_velocity_at u cs gam i ci : total_velocity u (map cell_at cs) gam i (cell_at ci) = total_velocity u cs gam i ci.
  Proof.
    unfold total_velocity. rewrite mapi_map. f_equal. f_equal. f_equal. unfold mapi. apply mapi_from_ext. intros j cj.
    cbn [cell_at c_sec]. apply induced_at.
  Qed.
  Lemma solve_cell_at cg y vi c : solve_cell (vadd cg x) y vi (cell_at c) = solve_cell cg y vi c.
  Proof. unfold solve_cell. cbn [cell_at c_sec]. cbv zeta. cbn [sec_at s_r s_r1 s_r2]. rewrite !sub_at. reflexivity. Qed.
  Lemma solve_cells_at u cg cs gam : solve_cells u (vadd cg x) (map cell_at cs) gam = solve_cells u cg cs gam.
  Proof.
    unfold solve_cells.
    assert (G : forall all gall cs gam i,
      solve_cells_from u (vadd cg x) (map cell_at all) gall i (map cell_at cs) gam = solve_cells_from u cg all gall i cs gam).
    { intros all gall. induction cs0 as [|c cs0 IH]; intros [|y g0] i; cbn [map solve_cells_from]; auto.
      rewrite IH, total_velocity_at, solve_cell_at. reflexivity. }
    apply G.
  Qed.
  Lemma linear_solve_at ls g cg s : linear_solve ls (grid_at g) (vadd cg x) s = linear_solve ls g cg s.
  Proof.
    unfold linear_solve. cbv zeta. rewrite cells_at, a_matrix_at, b_entries_at.
    destruct (ls _ _) as [gam|]; [|reflexivity]. rewrite solve_cells_at. reflexivity.
  Qed.
  Lemma ll_solve_at ls g cg stype a c s : ll_solve ls (grid_at g) (vadd cg x) stype a c s = ll_solve ls g cg stype a c s.
  Proof.
    unfold ll_solve, sbind. rewrite process_aero_at. destruct (process_aero g cg a s) as [[y|e] s']; [|reflexivity].
    rewrite process_control_at. destruct (process_control g c s') as [[z|e] t]; [|reflexivity].
    destruct (String.eqb stype "linear"); [apply linear_solve_at|reflexivity].
  Qed.
  Lemma stall_at g s : find_stall_location (grid_at g) s = find_stall_location g s.
  Proof.
    unfold find_stall_location. destruct (l_cl s) as [cl|]; [|reflexivity]. f_equal. cbn [grid_at g_sections]. revert cl.
    induction (g_sections g) as [|y secs IH]; intros [|c cl]; cbn [map first_stalled]; auto. rewrite IH. reflexivity.
  Qed.
  Lemma rows_at g r s : wing_rows (grid_at g) r s = match wing_rows g r s with Ok l => Ok (map (row_at x) l) | Err e => Err e end.
  Proof.
    unfold wing_rows, ll_distributions. destruct (l_alphas s) as [al|], (l_forces s) as [f|], (l_cl s) as [cl|], (l_cm s) as [cm|], (l_cd s) as [cd|]; try reflexivity.
    cbn [rbind]. f_equal. rewrite map_map. cbn [grid_at g_sections]. revert al f cl cm cd.
    induction (g_sections g) as [|y secs IH]; intros [|? al] [|? f] [|? cl] [|? cm] [|? cd]; cbn [map dist_rows]; auto.
    rewrite IH. reflexivity.
  Qed.

  (** *** Propellers *)
  Definition pgeom_at (g : pgeom R) : pgeom R :=
    MkPG (pg_name g) (vadd (pg_pos g) x) (pg_d g) (pg_hd g) (pg_theta g) (pg_gamma g) (pg_forward g) (pg_rot g) (pg_stations g)
         (pg_k g) (pg_motor g) (pg_wing g) (pg_units g).
  Lemma wing_point_at pos fwd d pt : wing_point (vadd pos x) fwd d (vadd pt x) = wing_point pos fwd d pt.
  Proof.
    unfold wing_point. rewrite sub_at. cbv zeta. set (t := vdot _ _).
    assert (E : vsub (vadd pt x) (vadd (vadd pos x) (vscale t fwd)) = vsub pt (vadd pos (vscale t fwd))) by vring.
    rewrite E. reflexivity.
  Qed.
  Lemma make_pgeom_at E u pts p : make_pgeom E u (option_map (map (fun v => vadd v x)) pts) (prop_at x p) =
    match make_pgeom E u pts p with Ok g => Ok (pgeom_at g) | Err e => Err e end.
  Proof.
    unfold make_pgeom.
    change (zetas (prop_at x p)) with (zetas p). destruct (zetas p) as [zs|]; cbn [rbind]; [|reflexivity].
    change (coefficients (prop_at x p) zs) with (coefficients p zs). destruct (coefficients p zs) as [c|]; cbn [rbind]; [|reflexivity].
    change (pitch E (prop_at x p)) with (pitch E p). destruct (pitch E p) as [b|]; cbn [rbind]; [|reflexivity].
    change (chord E (prop_at x p) zs) with (chord E p zs). destruct (chord E p zs) as [cb|]; cbn [rbind]; [|reflexivity].
    change (make_motor (prop_at x p)) with (make_motor p). destruct (make_motor p) as [m|]; cbn [rbind]; [|reflexivity].
    cbn [prop_at pr_name pr_position pr_elevation pr_heading pr_diameter pr_hub pr_blades pr_rot_dir].
    unfold pgeom_at. cbn [pg_name pg_pos pg_d pg_hd pg_theta pg_gamma pg_forward pg_rot pg_stations pg_k pg_motor pg_wing pg_units].
    f_equal. f_equal. destruct pts as [pts|]; cbn [option_map]; [|reflexivity]. f_equal. rewrite map_map. apply map_ext.
    intros. apply wing_point_at.
  Qed.
  Lemma make_props_at E pl pts : make_props E (plane_at x pl) (option_map (map (fun v => vadd v x)) pts) =
    match make_props E pl pts with Ok gs => Ok (map pgeom_at gs) | Err e => Err e end.
  Proof.
    unfold make_props. change (get_units (plane_at x pl)) with (get_units pl). cbn [plane_at a_props]. rewrite map_map. cbn [snd].
    induction (a_props pl) as [|p ps IH]; [reflexivity|]. cbn [map rmap snd]. rewrite IH.
    destruct (get_units pl) as [u|]; cbn [rbind]; [|reflexivity]. rewrite make_pgeom_at.
    destruct (make_pgeom E u pts (snd p)); cbn [rbind]; [|reflexivity].
    match goal with |- rbind (match ?q with _ => _ end) _ = _ => destruct q end; reflexivity.
  Qed.
  Lemma resolve_at g cg s : resolve (pgeom_at g) (vadd cg x) s = resolve g cg s.
  Proof. unfold resolve. cbn [pgeom_at pg_pos]. rewrite sub_at. reflexivity. Qed.
  Lemma run_prop_at E cg a ps g s : run_prop E (vadd cg x) a ps (pgeom_at g) s = run_prop E cg a ps g s.
  Proof.
    unfold run_prop, p_calc_forces.
    change (find_coefficients E (pgeom_at g)) with (find_coefficients E g).
    change (state_from_power E (pgeom_at g)) with (state_from_power E g).
    cbn [pgeom_at pg_d pg_name pg_stations]. fold (pgeom_at g).
    assert (F : forall s, resolve (pgeom_at g) (vadd cg x) s = resolve g cg s) by (intros; apply resolve_at).
    unfold sbind. destruct (p_set_aero a s) as [[?|?] s1]; [|reflexivity].
    destruct (p_set_prop _ _ s1) as [[?|?] s2]; [|reflexivity]. unfold sget.
    match goal with |- match ?p with _ => _ end = _ => destruct p as [[?|?] s3] end; [|reflexivity]. unfold smod.
    cbn [pgeom_at]. rewrite F. reflexivity.
  Qed.
  Lemma run_props_at E cg a ps : forall gs ss, run_props E (vadd cg x) a ps (map pgeom_at gs) ss = run_props E cg a ps gs ss.
  Proof.
    induction gs as [|g gs IH]; intros [|s ss]; cbn [map run_props]; auto. rewrite run_prop_at.
    destruct (run_prop E cg a ps g s) as [[?|?] ?]; [|reflexivity]. now rewrite IH.
  Qed.
  Lemma slipstreams_at : forall gs ss rows, slipstreams (map pgeom_at gs) ss rows = slipstreams gs ss rows.
  Proof.
    induction gs as [|g gs IH]; intros [|s ss] rows; cbn [map slipstreams]; auto.
    (* the slipstream does not read the position *)
  Qed.
  Lemma props_solve_at E cg n a ps gs ss :
    props_solve E (vadd cg x) n a ps (map pgeom_at gs) ss = props_solve E cg n a ps gs ss.
  Proof.
    unfold props_solve, sbind, calc_forces. rewrite run_props_at.
    match goal with |- match ?p with _ => _ end = _ => destruct p as [[?|?] ?] end; [|reflexivity].
    destruct n as [n|]; [|reflexivity]. unfold slift. destruct (velocity_field a n); [|reflexivity].
    unfold sget, sret. now rewrite slipstreams_at.
  Qed.
End Place.
