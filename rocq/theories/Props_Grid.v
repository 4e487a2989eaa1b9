(** Properties C01-C07, C13-C15 of the section grid.  Vocabulary: Spec_Grid.v,
    Spec_Geom.v.  [make_grid cosine pl = Ok g] is LLGrid(plane, cosine) returning;
    [wingsegments pl] is plane.get_wingsegments(); [num_sections pl] is
    plane.get_num_sections(); [block_of g k] are the sections of the k-th segment;
    [built pl]: pl is the result of some history of public calls. *)
From Coq Require Import Reals ZArith String Bool Arith Lia Lra List.
From Verif Require Import Base Num RVec Geometry Api Grid Spec_Grid Spec_Geom
     Grid_facts Grid_R Grid_thm Mirror Demo Grid_props.
Import ListNotations.
Local Open Scope R_scope.

(** *** C01 *)
Theorem C01_section_bookkeeping :
  forall (T : Type) (N : num_ops T) cosine (pl : airplane T) g,
    make_grid cosine pl = Ok g ->
    List.length (g_sections g) = num_sections pl /\
    g_num g = num_sections pl /\
    num_sections pl = list_sum (map (@sg_num T) (wingsegments pl)) /\
    List.length (g_slices g) = List.length (wingsegments pl) /\
    (forall i, (i < num_sections pl)%nat ->
       exists! k, exists a b, nth_error (g_slices g) k = Some (a, b) /\ (a <= i < b)%nat) /\
    (forall k a b, nth_error (g_slices g) k = Some (a, b) -> (a <= b <= num_sections pl)%nat) /\
    (forall k a b a' b', nth_error (g_slices g) k = Some (a, b) ->
                         nth_error (g_slices g) (S k) = Some (a', b') -> a' = b) /\
    (forall k sg, nth_error (wingsegments pl) k = Some sg ->
       List.length (block_of g k) = sg_num sg /\
       forall s, In s (block_of g k) -> s_name s = sg_name sg).
Proof. exact @grid_bookkeeping. Qed.
Print Assumptions C01_section_bookkeeping.

Theorem C01_segment_order :
  forall (T : Type) (N : num_ops T) name pos (cs : list (api_call T)),
    all_return cs (new_airplane name pos) -> NoDup (map fst (added cs)) ->
    map (@sg_name T) (wingsegments (run_calls cs (new_airplane name pos)))
    = flat_map (fun p => segment_names (fst p) (snd p)) (added cs).
Proof. exact @segment_order. Qed.
Print Assumptions C01_segment_order.

Example C01_applies :
  (exists g, make_grid true (demo (T := R)) = Ok g /\ num_sections (demo (T := R)) = 16%nat) /\
  all_return (demo_calls (T := R)) (new_airplane "demo" None) /\
  NoDup (map fst (added (demo_calls (T := R)))).
Proof.
  split; [|split].
  - destruct (demo_grid true) as [g Hg]. exists g. split; auto.
  - apply demo_all_return.
  - repeat constructor; simpl; intuition discriminate.
Qed.

(** *** C02 *)
Theorem C02_sections_partition_segment :
  forall cosine (pl : airplane R) g k sg L R',
    make_grid cosine pl = Ok g -> nth_error (wingsegments pl) k = Some sg ->
    (1 <= sg_num sg)%nat ->
    seg_position (position_fuel pl) pl sg "left_tip" = Ok L ->
    seg_position (position_fuel pl) pl sg "right_tip" = Ok R' ->
    L <> R' ->
    partitions L R' (block_of g k).
Proof. exact grid_partitions. Qed.
Print Assumptions C02_sections_partition_segment.

(** Distinct tips: every segment with a positive span. *)
Theorem C02_tips_distinct :
  forall (pl : airplane R) sg fuel L R',
    0 < sg_span sg ->
    seg_position fuel pl sg "left_tip" = Ok L -> seg_position fuel pl sg "right_tip" = Ok R' ->
    L <> R'.
Proof. intros pl sg fuel L R'; exact (tips_distinct fuel pl sg L R'). Qed.
Print Assumptions C02_tips_distinct.

Example C02_applies : forall cosine, exists g sg L R',
  make_grid cosine (demo (T := R)) = Ok g /\ nth_error (wingsegments (demo (T := R))) 0 = Some sg /\
  (1 <= sg_num sg)%nat /\
  seg_position (position_fuel demo) demo sg "left_tip" = Ok L /\
  seg_position (position_fuel demo) demo sg "right_tip" = Ok R' /\ L <> R' /\ 0 < sg_span sg.
Proof.
  intros cosine. destruct (demo_grid cosine) as [g Hg]. rewrite demo_eq in *.
  pose proof (demo_positioned (T := R)) as Hp.
  destruct (wingsegments demo_val) as [|sg l] eqn:E; [discriminate|].
  inversion Hp as [|? ? (Hn & (L & HL) & (R' & HR)) _]; subst.
  assert (Hs : 0 < sg_span sg).
  { apply (f_equal (fun l => match l with s :: _ => sg_span s | [] => 0 end)) in E.
    change (nint 4 = sg_span sg) in E. rewrite <- E. rnum. lra. }
  exists g, sg, L, R'. repeat split; auto; try lia.
  eapply tips_distinct; eauto.
Qed.

(** *** C03, C04, C07 *)
Theorem C03_planform_area_exact :
  forall cosine (pl : airplane R) g k sg,
    make_grid cosine pl = Ok g -> nth_error (wingsegments pl) k = Some sg ->
    (1 <= sg_num sg)%nat -> 0 < sg_span sg -> 0 < cos (nrad (sg_sweep sg)) ->
    total (@s_dS R) (block_of g k)
    = trapezoid_area (sg_span sg) (sg_root_chord sg) (sg_tip_chord sg).
Proof. exact grid_area. Qed.
Print Assumptions C03_planform_area_exact.

Theorem C04_chord_squared_integral_exact :
  forall cosine (pl : airplane R) g k sg,
    make_grid cosine pl = Ok g -> nth_error (wingsegments pl) k = Some sg ->
    (1 <= sg_num sg)%nat -> 0 < sg_span sg ->
    total (@s_ic2 R) (block_of g k)
    = trapezoid_chord2 (sg_span sg) (sg_root_chord sg) (sg_tip_chord sg).
Proof. exact grid_chord2. Qed.
Print Assumptions C04_chord_squared_integral_exact.

Theorem C07_reference_area :
  forall cosine (pl : airplane R) g,
    make_grid cosine pl = Ok g ->
    (forall sg, In sg (wingsegments pl) -> sg_is_main sg = true ->
       (1 <= sg_num sg)%nat /\ 0 < sg_span sg /\ 0 < cos (nrad (sg_sweep sg))) ->
    g_ref_area g = total (fun sg => trapezoid_area (sg_span sg) (sg_root_chord sg) (sg_tip_chord sg))
                         (filter (@sg_is_main R) (wingsegments pl)).
Proof. exact grid_ref_area. Qed.
Print Assumptions C07_reference_area.

Example C03_C04_C07_apply : forall cosine,
  exists g, make_grid cosine (demo (T := R)) = Ok g /\
  (forall sg, In sg (wingsegments (demo (T := R))) ->
     (1 <= sg_num sg)%nat /\ 0 < sg_span sg /\ 0 < cos (nrad (sg_sweep sg))) /\
  List.length (filter (@sg_is_main R) (wingsegments demo)) = 2%nat /\
  List.length (wingsegments (demo (T := R))) = 7%nat.
Proof.
  intros cosine. destruct (demo_grid cosine) as [g Hg]. exists g. split; auto. split.
  - rewrite demo_eq. intros sg Hin.
    assert (Hc : forall x, 0 <= x <= 10 -> 0 < cos (nrad x)).
    { intros x Hx. pose proof PI_RGT_0. rnum. apply cos_gt_0; nra. }
    cbv [wingsegments lookup_wings demo_val flat_map a_wings a_store nth_error optl snd wing_segments
         w_side w_left w_right app] in Hin.
    repeat (destruct Hin as [<-|Hin];
      [cbn [sg_num sg_span sg_sweep]; repeat split; [lia|rnum; lra|apply Hc; rnum; lra]|]).
    destruct Hin.
  - split; reflexivity.
Qed.

(** *** C05 *)
Theorem C05_frames_orthonormal :
  forall cosine (pl : airplane R) g s,
    make_grid cosine pl = Ok g -> In s (g_sections g) ->
    orthonormal_frame (s_ua s) (s_un s) (s_us s).
Proof. exact grid_frames. Qed.
Print Assumptions C05_frames_orthonormal.

(** Orientation: with zero twist and dihedral the frame is (-x, -z, -y). *)
Theorem C05_frame_orientation :
  forall cosine (pl : airplane R) g k sg s,
    make_grid cosine pl = Ok g -> nth_error (wingsegments pl) k = Some sg -> In s (block_of g k) ->
    s_mount s = s_washout s -> sg_dihedral sg = 0 ->
    s_ua s = V3 (-1) 0 0 /\ s_un s = V3 0 0 (-1) /\ s_us s = V3 0 (-1) 0.
Proof. exact grid_frame_zero. Qed.
Print Assumptions C05_frame_orientation.

(** Positive twist tilts the normal forward, dihedral tilts it inward. *)
Theorem C05_frame_general :
  forall cosine (pl : airplane R) g k sg s,
    make_grid cosine pl = Ok g -> nth_error (wingsegments pl) k = Some sg -> In s (block_of g k) ->
    let t := (s_mount s - s_washout s) * PI / 180 in
    let d := sg_dihedral sg * PI / 180 in
    s_ua s = V3 (- cos t) (side_sign (sg_side sg) * sin d * sin t) (cos d * sin t) /\
    s_un s = V3 (- sin t) (- (side_sign (sg_side sg) * sin d * cos t)) (- (cos d * cos t)).
Proof. exact grid_frame_general. Qed.
Print Assumptions C05_frame_general.

(** *** C06 *)
Theorem C06_left_mirrors_right :
  forall cosine (pl : airplane R) g w k sl sr,
    built pl -> make_grid cosine pl = Ok g ->
    In w (lookup_wings pl) -> symmetric_wing pl w -> wing_segments w = [sl; sr] ->
    nth_error (wingsegments pl) k = Some sl -> nth_error (wingsegments pl) (S k) = Some sr ->
    0 < sg_span sl ->
    sg_num sl = sg_num sr /\
    forall i s, nth_error (block_of g k) i = Some s ->
    exists s', nth_error (block_of g (S k)) (sg_num sr - 1 - i) = Some s' /\
               s = mirror_section (sg_name sl) s'.
Proof. exact block_mirror. Qed.
Print Assumptions C06_left_mirrors_right.

Example C06_applies : forall cosine, exists g w sl sr,
  built demo_sym /\ make_grid cosine (demo_sym (T := R)) = Ok g /\ In w (lookup_wings demo_sym) /\
  symmetric_wing demo_sym w /\ wing_segments w = [sl; sr] /\
  nth_error (wingsegments demo_sym) 2 = Some sl /\ nth_error (wingsegments demo_sym) 3 = Some sr /\
  sg_parent sl = PWing 0 /\ 0 < sg_span sl.
Proof.
  intros cosine. destruct (demo_sym_grid cosine) as [g Hg]. exists g.
  pose proof (demo_sym_built (T := R)) as Hb. rewrite demo_sym_eq in *.
  do 3 eexists. split; [exact Hb|]. split; [exact Hg|].
  split; [right; left; reflexivity|]. split.
  - apply sym_child with (id := 0%nat) (p := nth 0 (a_store demo_sym_val) (MkWing "" WBoth None None)).
    + reflexivity.
    + intros s [<-|[<-|[]]]; split; reflexivity.
    + reflexivity.
    + apply sym_top; [reflexivity|].
      intros s [<-|[<-|[]]]; (split; [reflexivity|right; split; reflexivity]).
  - repeat split; try reflexivity. cbn. rnum. lra.
Qed.

(** *** C13 *)
Theorem C13_control_surface :
  forall cosine (pl : airplane R) g k sg s,
    make_grid cosine pl = Ok g -> nth_error (wingsegments pl) k = Some sg -> In s (block_of g k) ->
    let c := sg_control sg in
    let t := from_root (sg_side sg) (s_sp s) in
    (covered c t ->
       s_mix_a s = side_sign (sg_side sg) * mix_of c "aileron" /\
       s_mix_e s = mix_of c "elevator" /\
       s_mix_r s = side_sign (sg_side sg) * mix_of c "rudder" /\
       s_mix_f s = mix_of c "flap" /\
       s_flap_eff s = (if cs_sealed c then 1 else 8 / 10) * hinge_efficiency (flap_chord c t)
                      * ideal_effectiveness (flap_chord c t) /\
       s_cmd s = flap_moment_slope (flap_chord c t)) /\
    (~ covered c t ->
       s_mix_a s = 0 /\ s_mix_e s = 0 /\ s_mix_r s = 0 /\ s_mix_f s = 0 /\
       s_flap_eff s = 0 /\ s_cmd s = 0).
Proof. exact grid_control. Qed.
Print Assumptions C13_control_surface.

Theorem C13_zero_chord_surface :
  forall cosine (pl : airplane R) g k sg s,
    make_grid cosine pl = Ok g -> nth_error (wingsegments pl) k = Some sg -> In s (block_of g k) ->
    cs_chord_root (sg_control sg) = 0 -> cs_chord_tip (sg_control sg) = 0 ->
    s_flap_eff s = 0 /\ s_cmd s = 0.
Proof. exact grid_zero_chord. Qed.
Print Assumptions C13_zero_chord_surface.

(** *** C14 *)
(** Two airplanes that differ only in whether surfaces are sealed. *)
Theorem C14_unsealed_efficiency :
  forall cosine (pl pl' : airplane R) g g' k sg sg' i s s',
    make_grid cosine pl = Ok g -> make_grid cosine pl' = Ok g' ->
    nth_error (wingsegments pl) k = Some sg -> nth_error (wingsegments pl') k = Some sg' ->
    sg' = set_sealed false sg -> cs_sealed (sg_control sg) = true ->
    nth_error (block_of g k) i = Some s -> nth_error (block_of g' k) i = Some s' ->
    s_flap_eff s' = 8 / 10 * s_flap_eff s /\ s_cmd s' = s_cmd s /\
    (s_mix_a s', s_mix_e s', s_mix_r s', s_mix_f s') = (s_mix_a s, s_mix_e s, s_mix_r s, s_mix_f s).
Proof. exact grid_sealed. Qed.
Print Assumptions C14_unsealed_efficiency.

(** The flag is read under "sealed" only; "is_sealed" has no effect at all. *)
Theorem C14_sealed_keyword :
  forall (T : Type) (N : num_ops T) (dims : dict (pyval T)) c,
    make_cs dims = Ok c ->
    cs_sealed c = match dget dims "sealed" with Some v => ptruthy v | None => true end.
Proof. exact @make_cs_sealed. Qed.
Print Assumptions C14_sealed_keyword.

Theorem C14_is_sealed_ignored :
  forall (T : Type) (N : num_ops T) (dims : dict (pyval T)) v,
    dims <> [] -> make_cs (dset dims "is_sealed" v) = make_cs dims.
Proof. exact @make_cs_is_sealed. Qed.
Print Assumptions C14_is_sealed_ignored.

Theorem C14_documented_keyword_refuted :
  exists (dims : dict (pyval R)) c,
    dget dims "is_sealed" = Some (VInt 0) /\ make_cs dims = Ok c /\ cs_sealed c = true.
Proof.
  exists [("percent_span", VList [VInt 0; VInt 1]); ("percent_chord", VInt 0); ("mix", VDict []);
          ("is_sealed", VInt 0)]%string.
  eexists. repeat split.
Qed.
Print Assumptions C14_documented_keyword_refuted.

(** *** C15 *)
Theorem C15_airfoil_call :
  forall (T : Type) (N : num_ops T) id name end_ props (pl pl' : airplane T) af w,
    wing_airfoil id name end_ props pl = (Ok af, pl') ->
    nth_error (a_store pl) id = Some w -> wing_ok w ->
    make_airfoil name props = Ok af /\
    (forall id', id' <> id -> nth_error (a_store pl') id' = nth_error (a_store pl) id') /\
    a_wings pl' = a_wings pl /\
    exists w', nth_error (a_store pl') id = Some w' /\ w_name w' = w_name w /\ w_side w' = w_side w /\
      Forall2 (fun s s' =>
        s' = seg_set_airfoils
               (if (String.eqb end_ "both" || String.eqb end_ "root")%bool then af else sg_root_af s)
               (if (String.eqb end_ "both" || String.eqb end_ "tip")%bool then af else sg_tip_af s) s)
        (wing_segments w) (wing_segments w').
Proof. exact @airfoil_call. Qed.
Print Assumptions C15_airfoil_call.

Theorem C15_interpolation :
  forall cosine (pl : airplane R) g k sg s,
    make_grid cosine pl = Ok g -> nth_error (wingsegments pl) k = Some sg -> In s (block_of g k) ->
    let t := from_root (sg_side sg) (s_sp s) in
    let root := sg_root_af sg in let tip := sg_tip_af sg in
    let lin (f : airfoil R -> R) := between (f root) (f tip) t in
    0 < t < 1 /\
    tm (s_cla s) = lin (@af_CL_alpha R) /\ tm (s_al0 s) = lin (@af_alpha_L0 R) /\
    tm (s_cma s) = lin (@af_Cm_alpha R) /\ tm (s_cml0 s) = lin (@af_Cm_L0 R) /\
    tm (s_cd0 s) = lin (@af_CD_0 R) /\ tm (s_cd1 s) = lin (@af_CD_L R) /\
    tm (s_cd2 s) = lin (@af_CD_L2 R) /\ tm (s_clmax s) = lin (@af_CL_max R) /\
    s_c s = between (sg_root_chord sg) (sg_tip_chord sg) t /\
    s_washout s = t * sg_washout sg.
Proof. exact grid_interpolation. Qed.
Print Assumptions C15_interpolation.

(** Interpolated values stay between the end values; equal ends give that value. *)
Theorem C15_bounds :
  forall root tip t : R, 0 < t < 1 ->
    Rmin root tip <= between root tip t <= Rmax root tip /\ between root root t = root.
Proof. exact between_bounds. Qed.
Print Assumptions C15_bounds.

Theorem C15_airfoil_defaults_and_errors :
  forall (T : Type) (N : num_ops T) name (props : dict (pyval T)),
    (props = [] -> make_airfoil name props
                   = Ok (MkAirfoil name VNone (ndec (-369) 4) (ndec 62832 4) (ndec 14 1)
                           (ndec (-527) 4) (ndec (-8) 2) (ndec 55 4) (ndec (-45) 4) (ndec 1 2))) /\
    (props <> [] ->
     (forall k v, In k airfoil_keys -> dget props k = Some v -> exists x, pnum v = Ok x) ->
     (make_airfoil name props = Err KeyError <-> exists k, In k airfoil_keys /\ dget props k = None)).
Proof. exact @airfoil_errors. Qed.
Print Assumptions C15_airfoil_defaults_and_errors.

Example C13_C14_C15_apply : exists g s sg,
  make_grid false (demo (T := R)) = Ok g /\ nth_error (wingsegments demo) 1 = Some sg /\
  In s (block_of g 1) /\ covered (sg_control sg) (from_root (sg_side sg) (s_sp s)) /\
  sg_root_af sg <> sg_tip_af sg.
Proof. exact demo_covered. Qed.
