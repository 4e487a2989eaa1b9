(** Properties C57-C60 and C62-C65: the STL output.  Vocabulary: Spec_Stl.v.

    [create_from_grid 50 g props] is the mesh that outputstl.create_from_grid saves, for the
    wings [g] and the propellers [props] of a MachUp object; [create_stl] is
    MachUp.create_stl.  [all_writes] is the list of assignments to the mesh, in order. *)
From Coq Require Import Reals ZArith String Ascii Bool Arith List Lra Lia Permutation Sorted.
From Verif Require Import Base Num RVec Geometry Grid LLModel Spec_Grid Spec_Geom Grid_facts PropModel MU
     Spec_Prop Prop_thm6 Demo Demo_MU Stl Spec_Stl Stl_thm Stl_thm2 Stl_R Stl_thm3 Stl_thm4 Stl_thm5 Stl_thm6 Demo_Stl.
Import ListNotations.
Local Open Scope string_scope.
Local Open Scope R_scope.

(** *** C57 *)
(** The mesh consists of the surfaces of the wing segments and of the blades and of nothing
    else; the assignments store its triangles from slot 0 on, each corner once; the number
    of slots allocated is the number of triangles.  Otherwise: an airfoil name (C60) or a
    propeller without blades. *)
Theorem C57_mesh_complete :
  forall T (N : num_ops T) (E : menv T) (pl : airplane T) X,
    make_machup E pl = Ok X -> Forall (fun g => pg_stations g <> []) (mm_props X) ->
    match create_from_grid 50 (mm_grid X) (combine (map snd (a_props pl)) (mm_props X)) with
    | Ok mesh =>
        exists wings blades,
          Forall2 (fun sg rows => rectangular (sg_num sg) 50 rows)
                  (match mm_grid X with Some g => g_segments g | None => [] end) wings /\
          Forall2 (fun g bs => List.length bs = pg_k g /\ (1 <= pg_k g)%nat /\
                               Forall (rectangular (List.length (pg_stations g)) 50) bs) (mm_props X) blades /\
          mesh = (flat_map (surface false) wings ++
                  concat (map2 (fun g bs => flat_map (surface (negb (neqb (pg_rot g) n1))) bs) (mm_props X) blades))%list /\
          all_writes 50 (mm_grid X) (combine (map snd (a_props pl)) (mm_props X)) = Ok (stores 0 mesh) /\
          Z.of_nat (List.length mesh) = num_faces 50 (mm_grid X) (mm_props X)
    | Err e => e = UnboundLocalError \/ e = ValueError \/
               e = ZeroDivisionError /\ exists g, In g (mm_props X) /\ pg_k g = 0%nat
    end.
Proof. exact @create_whole. Qed.
Print Assumptions C57_mesh_complete.

(** create_stl raises what its solve raises, returns without a file for an airplane without
    parts, and saves that mesh otherwise. *)
Theorem C57_create_stl :
  forall T (N : num_ops T) (E : menv T) (pl : airplane T) X w r w',
    make_machup E pl = Ok X -> List.length (m_ps (w_model w)) = List.length (mm_props X) ->
    create_stl E pl X w = (r, w') ->
    match fst (mu_solve E X None None (MkW None None (w_model w) (w_files w) (w_log w))) with
    | Err e => r = Err e
    | Ok _ =>
        Forall (fun g => pg_stations g <> []) (mm_props X) /\
        match mm_grid X, mm_props X with
        | None, [] => r = Ok None
        | _, _ => r = (rlet m := create_from_grid 50 (mm_grid X) (combine (map snd (a_props pl)) (mm_props X)) in Ok (Some m))
        end
    end.
Proof. exact @create_stl_whole. Qed.
Print Assumptions C57_create_stl.

(** Four segments with 3, 3, 2 and 2 sections: (2 + 2 + 1 + 1) * 49 * 2 triangles; with the
    propeller (two blades, two stations) 2 * 49 * 2 more. *)
Example C57_applies : exists X mesh w',
  make_machup easy_env (sketch_val "naca0009") = Ok X /\ a_wings (sketch_val (T := R) "naca0009") <> [] /\
  create_stl easy_env (sketch_val "naca0009") X (MkW None None (init_mstate X) [] []) = (Ok (Some mesh), w') /\
  List.length mesh = 588%nat.
Proof. exact sketch_drawn. Qed.
Example C57_applies_propeller E : exists X, make_machup E (sketch demo_prop "naca0009") = Ok X /\
  Forall (fun g => pg_stations g <> []) (mm_props X) /\ Forall (fun g => (0 < pg_k g)%nat) (mm_props X) /\
  exists g, mm_props X = [g] /\ pg_k g = 2%nat /\ List.length (pg_stations g) = 2%nat.
Proof. exact (sketch_made E "naca0009"). Qed.

(** *** C58 *)
Theorem C58_unit_quaternion : forall p t g : R, let e := euler2quat p t g in
  qw e * qw e + qx e * qx e + qy e * qy e + qz e * qz e = 1.
Proof. exact euler_unit. Qed.
Print Assumptions C58_unit_quaternion.
(** Rotating by it: about the x axis by [p], then y by [t], then z by [g]. *)
Theorem C58_euler_rotation : forall p t g (v : vec3 R),
  body2fixed v (euler2quat p t g)
  = let v1 := V3 (vx v) (cos p * vy v - sin p * vz v) (sin p * vy v + cos p * vz v) in
    let v2 := V3 (cos t * vx v1 + sin t * vz v1) (vy v1) (cos t * vz v1 - sin t * vx v1) in
    V3 (cos g * vx v2 - sin g * vy v2) (sin g * vx v2 + cos g * vy v2) (vz v2).
Proof. intros. exact (body_euler p t g v). Qed.
Print Assumptions C58_euler_rotation.
Theorem C58_rigid : forall e, qw e * qw e + qx e * qx e + qy e * qy e + qz e * qz e = 1 ->
  forall u v : vec3 R,
    vdot (body2fixed u e) (body2fixed v e) = vdot u v /\
    vcross (body2fixed u e) (body2fixed v e) = body2fixed (vcross u v) e /\
    body2fixed (vadd u v) e = vadd (body2fixed u e) (body2fixed v e).
Proof. exact unit_rigid. Qed.
Print Assumptions C58_rigid.
Theorem C58_composition : forall (v : vec3 R) a b, body2fixed v (quat_mult a b) = body2fixed (body2fixed v b) a.
Proof. exact mult_compose. Qed.
Print Assumptions C58_composition.
Example C58_applies : let e := Q4 (3 / 5) 0 (4 / 5) 0 in
  qw e * qw e + qx e * qx e + qy e * qy e + qz e * qz e = 1 /\ body2fixed (V3 1 0 0) e <> V3 1 0 0.
Proof. cbn. split; [lra|]. intros H. injection H as H _ _. lra. Qed.

(** *** C59 *)
(** The points drawn, turned over and moved by a quarter chord, are those of [shape] ... *)
Theorem C59_outline : forall d f, four_digits d f ->
  exists l, outline (T := R) d 50 = Ok l /\ List.length l = 50%nat /\
    forall j, (j < 50)%nat ->
      fst (nth j l (0, 0)) = 1 / 4 - fst (shape f j) /\ snd (nth j l (0, 0)) = - snd (shape f j).
Proof. exact outline_shape. Qed.
Print Assumptions C59_outline.
(** ... whose slope is that of the mean line ahead of the maximum camber, and half of it aft. *)
Theorem C59_slope_ahead : forall f x, 0 < pf_at f < 1 -> x < pf_at f ->
  derivable_pt_lim (mean_line f) x (drawn_slope f x).
Proof. exact slope_ahead. Qed.
Print Assumptions C59_slope_ahead.
Theorem C59_slope_aft : forall f x, 0 < pf_at f < 1 -> pf_at f < x ->
  derivable_pt_lim (mean_line f) x (2 * drawn_slope f x).
Proof. exact slope_aft. Qed.
Print Assumptions C59_slope_aft.
(** So the drawn slope is not the slope of a cambered section. *)
Theorem C59_true_slope_refuted : exists d f x l, four_digits d f /\ 0 < x < 1 /\
  derivable_pt_lim (mean_line f) x l /\ drawn_slope f x <> l.
Proof. exact slope_wrong. Qed.
Print Assumptions C59_true_slope_refuted.
Example C59_applies : four_digits "4415" p4415 /\ 0 < pf_at p4415 < 1.
Proof. split; [apply d4415|]. unfold p4415. cbn. lra. Qed.

(** *** C60 *)
(** The digits used after a list of names (newest first) are determined by the list; there are
    none exactly when every name begins with NACA and has not eight characters. *)
Theorem C60_digits_of_names : forall names,
  (exists d, drawn names d /\ forall d', drawn names d' -> d' = d) /\ ~ Forall irregular names \/
  Forall irregular names /\ forall d, ~ drawn names d.
Proof. exact drawn_or_none. Qed.
Print Assumptions C60_digits_of_names.
(** A wing whose first name is irregular cannot be drawn ... *)
Theorem C60_first_wing_name :
  forall (E : menv R) pl X, make_machup E pl = Ok X -> Forall (fun g => pg_stations g <> []) (mm_props X) ->
  forall sg rest, a_wings pl <> [] -> wingsegments pl = sg :: rest ->
    irregular (left_name sg) \/ (exists f, drawn_profile [left_name sg] f) /\ irregular (right_name sg) ->
    create_from_grid 50 (mm_grid X) (combine (map snd (a_props pl)) (mm_props X)) = Err UnboundLocalError.
Proof. exact first_wing_name. Qed.
Print Assumptions C60_first_wing_name.
(** ... nor can propellers. *)
Theorem C60_first_blade_name :
  forall (E : menv R) pl X, make_machup E pl = Ok X -> Forall (fun g => pg_stations g <> []) (mm_props X) ->
  exists afs,
    Forall2 (fun q a => blade_airfoils (fst q) (map (@z_zeta R) (pg_stations (snd q))) a)
            (combine (map snd (a_props pl)) (mm_props X)) afs /\
    forall wl wr x name rest more,
      (a_wings pl <> [] ->
         Forall2 drawn_profile (histories [] (map left_name (wingsegments pl))) wl /\
         Forall2 drawn_profile (histories [] (map right_name (wingsegments pl))) wr) ->
      afs = ((x, name) :: rest) :: more -> irregular name ->
      create_from_grid 50 (mm_grid X) (combine (map snd (a_props pl)) (mm_props X)) = Err UnboundLocalError.
Proof. exact first_blade_name. Qed.
Print Assumptions C60_first_blade_name.
(** The name of the airfoil in the repository's own examples. *)
Example C60_applies E : exists X, make_machup E (sketch demo_prop "NACA_2410") = Ok X /\
  create_from_grid 50 (mm_grid X) (combine (map snd (a_props (sketch demo_prop "NACA_2410"))) (mm_props X)) = Err UnboundLocalError.
Proof.
  destruct (sketch_made E "NACA_2410") as (X & H1 & H2 & _). exists X. split; [exact H1|].
  destruct (wingsegments (sketch demo_prop "NACA_2410")) as [|sg rest] eqn:Es; [discriminate|].
  apply (C60_first_wing_name E _ X H1 H2 sg rest); auto; [discriminate|].
  left. pose proof (sketch_left demo_prop "NACA_2410") as L. rewrite Es in L. cbn [map] in L. injection L as -> _.
  apply irregular2410.
Qed.

(** *** C62 *)
(** [wl], [wr]: the profiles at the left and right ends of the wing segments; [bl]: those
    along the blades.  The mesh that is saved is that of [airplane_mesh]: at each section
    (control point, local chord, axial and normal direction) the mixture of the two profiles,
    at each station of each blade the profile between the airfoils, pitched by
    [z_beta - z_al0] (see C63). *)
Theorem C62_drawing :
  forall (E : menv R) (pl : airplane R) X w mesh w',
    make_machup E pl = Ok X -> List.length (m_ps (w_model w)) = List.length (mm_props X) ->
    create_stl E pl X w = (Ok (Some mesh), w') ->
    exists afs,
      Forall2 (fun q a => blade_airfoils (fst q) (map (@z_zeta R) (pg_stations (snd q))) a)
              (combine (map snd (a_props pl)) (mm_props X)) afs /\
      forall wl wr bl,
        (a_wings pl <> [] ->
           Forall2 drawn_profile (histories [] (map left_name (wingsegments pl))) wl /\
           Forall2 drawn_profile (histories [] (map right_name (wingsegments pl))) wr) ->
        Forall2 (fun a b => map fst a = map fst b) afs bl ->
        Forall2 drawn_profile (histories [] (map snd (concat afs))) (map snd (concat bl)) ->
        mesh = airplane_mesh (fun s => z_beta s - z_al0 s) (mm_grid X) (mm_props X) wl wr bl.
Proof. exact stl_drawing. Qed.
Print Assumptions C62_drawing.
(** With these names the mesh exists. *)
Theorem C62_can_be_drawn :
  forall (E : menv R) pl X, make_machup E pl = Ok X -> Forall (fun g => pg_stations g <> []) (mm_props X) ->
    Forall (fun g => (0 < pg_k g)%nat) (mm_props X) ->
    exists afs,
      Forall2 (fun q a => blade_airfoils (fst q) (map (@z_zeta R) (pg_stations (snd q))) a)
              (combine (map snd (a_props pl)) (mm_props X)) afs /\
      forall wl wr bl,
        (a_wings pl <> [] ->
           Forall2 drawn_profile (histories [] (map left_name (wingsegments pl))) wl /\
           Forall2 drawn_profile (histories [] (map right_name (wingsegments pl))) wr) ->
        Forall2 (fun a b => map fst a = map fst b) afs bl ->
        Forall2 drawn_profile (histories [] (map snd (concat afs))) (map snd (concat bl)) ->
        create_from_grid 50 (mm_grid X) (combine (map snd (a_props pl)) (mm_props X))
        = Ok (airplane_mesh (fun s => z_beta s - z_al0 s) (mm_grid X) (mm_props X) wl wr bl).
Proof. exact drawing. Qed.
Print Assumptions C62_can_be_drawn.
(** The sketch: profiles 0009 and 4415 on the main wing; the tail, whose name is irregular, is
    drawn with the main wing's profiles.  The blades are NACA2412. *)
Example C62_applies E : exists X, make_machup E (sketch demo_prop "naca0009") = Ok X /\
  create_from_grid 50 (mm_grid X) (combine (map snd (a_props (sketch demo_prop "naca0009"))) (mm_props X))
  = Ok (airplane_mesh (fun s => z_beta s - z_al0 s) (mm_grid X) (mm_props X)
          [p0009; p4415; p4415; p4415] [p4415; p0009; p0009; p0009] [[(0, p2412)]]).
Proof.
  destruct (sketch_made E "naca0009") as (X & H1 & H2 & H3 & g & H4 & _). exists X. split; [exact H1|].
  destruct (drawing E _ X H1 H2 H3) as (afs & A1 & A2). unfold own_props in *.
  rewrite H4 in A1. change (a_props (sketch demo_prop "naca0009")) with [("main", demo_prop)] in A1. cbn [map snd combine] in A1.
  inversion A1 as [|? a ? l B1 B2]; subst. inversion B2; subst.
  destruct B1 as (placed & P & ->). unfold placed_on in P. cbn [fst demo_prop pr_airfoils] in P. subst placed.
  apply A2.
  - intros _. apply sketch_profiles.
  - constructor; [reflexivity|constructor].
  - cbn [concat app map snd default_airfoil af_name fst histories]. constructor; [apply stands2412|constructor].
Qed.

(** *** C63 *)
(** Finding: [x + i] is the pitch of the chord line according to the input (C54); the blades
    are drawn with the zero-lift angle subtracted twice. *)
Theorem C63_drawn_pitch :
  forall (E : menv R) (pl : airplane R) X w mesh w' (angle : station R -> R),
    make_machup E pl = Ok X -> List.length (m_ps (w_model w)) = List.length (mm_props X) ->
    create_stl E pl X w = (Ok (Some mesh), w') ->
    (forall p g z, In (p, g) (combine (map snd (a_props pl)) (mm_props X)) -> In z (pg_stations g) ->
       exists x i, chord_angle (pe_table (me_prop E)) p (z_zeta z) x /\ increment p i /\ 0 < pr_diameter p /\
         0 < z_zeta z /\ - (PI / 2) < z_al0 z < PI / 2 /\ - (PI / 2) < x - z_al0 z < PI / 2 /\
         angle z = (x + i) - 2 * z_al0 z) ->
    exists afs,
      Forall2 (fun q a => blade_airfoils (fst q) (map (@z_zeta R) (pg_stations (snd q))) a)
              (combine (map snd (a_props pl)) (mm_props X)) afs /\
      forall wl wr bl,
        (a_wings pl <> [] ->
           Forall2 drawn_profile (histories [] (map left_name (wingsegments pl))) wl /\
           Forall2 drawn_profile (histories [] (map right_name (wingsegments pl))) wr) ->
        Forall2 (fun a b => map fst a = map fst b) afs bl ->
        Forall2 drawn_profile (histories [] (map snd (concat afs))) (map snd (concat bl)) ->
        mesh = airplane_mesh angle (mm_grid X) (mm_props X) wl wr bl.
Proof. exact stl_drawn_pitch. Qed.
Print Assumptions C63_drawn_pitch.
(** The demo propeller (pitch 0.5, NACA2412). *)
Example C63_applies : forall E u wp g z, make_pgeom E u wp demo_prop = Ok g -> In z (pg_stations g) ->
  exists x i, chord_angle (pe_table E) demo_prop (z_zeta z) x /\ increment demo_prop i /\ 0 < pr_diameter demo_prop /\
    0 < z_zeta z /\ - (PI / 2) < z_al0 z < PI / 2 /\ - (PI / 2) < x - z_al0 z < PI / 2.
Proof.
  intros E u wp g z Hg Hz. destruct (demo_stations _ _ _ _ Hg z Hz) as (H1 & _ & H2).
  destruct (demo_make E u wp) as (g' & Hg' & _ & K). assert (g' = g) by congruence. subst g'.
  destruct (K z Hz) as (_ & Ha & _). pose proof PI_gt_3.
  exists (atan ((1 / 2) / (PI * z_zeta z))), 0. split; [apply CA_default; reflexivity|]. split; [apply IN_none; reflexivity|].
  split; [cbn; lra|]. split; [exact H1|]. split; [lra|].
  assert (A : 0 < atan (1 / 2 / (PI * z_zeta z)) < PI / 4); [|lra].
  assert (Z : 1 / 5 <= z_zeta z) by (destruct (K z Hz) as ([-> | ->] & _); lra).
  assert (B : 0 < 1 / 2 / (PI * z_zeta z) < 1).
  { split; [apply Rdiv_lt_0_compat; [lra|apply Rmult_lt_0_compat; lra]|]. apply Rmult_lt_reg_r with (PI * z_zeta z); [apply Rmult_lt_0_compat; lra|].
    unfold Rdiv. rewrite Rmult_assoc, Rinv_l by (apply Rmult_integral_contrapositive; split; lra). nra. }
  split; [rewrite <- atan_0; apply atan_increasing; lra|rewrite <- atan_1; apply atan_increasing; lra].
Qed.
Theorem C63_true_pitch_refuted : exists E u wp (p : prop R) g z x i,
  make_pgeom E u wp p = Ok g /\ In z (pg_stations g) /\ chord_angle (pe_table E) p (z_zeta z) x /\ increment p i /\
  z_beta z - z_al0 z <> x + i.
Proof. exact pitch_wrong. Qed.
Print Assumptions C63_true_pitch_refuted.

(** *** C64 *)
(** The outline is not closed: its ends are apart by 2.1 percent of the thickness. *)
Theorem C64_trailing_edge_gap : forall d f l, four_digits d f -> outline (T := R) d 50 = Ok l ->
  let first := nth 0 l (0, 0) in let last := nth 49 l (0, 0) in
  (fst last - fst first) * (fst last - fst first) + (snd last - snd first) * (snd last - snd first)
  = (21 / 1000 * pf_thick f) * (21 / 1000 * pf_thick f).
Proof. exact outline_gap. Qed.
Print Assumptions C64_trailing_edge_gap.
Example C64_applies : four_digits "4415" p4415 /\ 0 < pf_thick p4415 /\ exists l, outline (T := R) "4415" 50 = Ok l.
Proof.
  split; [apply d4415|]. split; [unfold p4415; cbn; lra|].
  destruct (outline_shape "4415" p4415 d4415) as (l & H & _). eauto.
Qed.

(** *** C65 *)
Theorem C65_blade_sections :
  forall E u wp (p : prop R) g, make_pgeom E u wp p = Ok g ->
  exists placed, placed_on p (map (@z_zeta R) (pg_stations g)) placed /\
    forall s, In s (pg_stations g) ->
      let along (f : airfoil R -> R) := broken_line (map (fun q => (fst q, f (snd q))) placed) (z_zeta s) in
      z_al0 s = along (@af_alpha_L0 R) /\ z_cla s = along (@af_CL_alpha R) /\ z_clmax s = along (@af_CL_max R) /\
      z_cd0 s = along (@af_CD_0 R) /\ z_cdl s = along (@af_CD_L R) /\ z_cdl2 s = along (@af_CD_L2 R).
Proof. exact blade_sections. Qed.
Print Assumptions C65_blade_sections.
Example C65_applies E u wp : exists g, make_pgeom E u wp two_airfoils = Ok g /\ List.length (pg_stations g) = 2%nat.
Proof. exact (two_made E u wp). Qed.
