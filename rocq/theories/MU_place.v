(** Displacing an airplane: the object and its analyses (C75). *)
From Coq Require Import Reals ZArith String Bool Arith Lia Lra List FunctionalExtensionality.
From Verif Require Import Base Num RVec Geometry Grid LLModel PropModel Spec_Geom MU Spec_Place LL_place.
Import ListNotations.
Local Open Scope string_scope.
Local Open Scope R_scope.

Section Place.
  Variable x : vec3 R.
  Definition machup_at (X : machup R) : machup R :=
    MkMU (option_map (grid_at x) (mm_grid X)) (mm_refs X) (map (pgeom_at x) (mm_props X)) (mm_points X) (vadd (mm_cg X) x).
  Lemma widest_at segs : widest (map (segment_at x) segs) = widest segs.
  Proof.
    unfold widest. generalize (n0 : R). induction segs as [|s segs IH]; intros m; cbn [map fold_left]; [reflexivity|].
    rewrite IH. assert (E : sg_span (segment_at x s) = sg_span s) by (unfold segment_at; destruct (sg_parent s); reflexivity).
    rewrite E. reflexivity.
  Qed.
  Lemma refs_at pl g : make_refs (plane_at x pl) (grid_at x g) = make_refs pl g.
  Proof. unfold make_refs. cbn [plane_at a_lat_ref a_long_ref grid_at g_ref_area g_segments]. rewrite widest_at. reflexivity. Qed.
  Lemma make_machup_at E pl : make_machup E (plane_at x pl) = match make_machup E pl with Ok X => Ok (machup_at X) | Err e => Err e end.
  Proof.
    unfold make_machup.
    assert (W : (match a_wings (plane_at x pl) with [] => Ok None | _ :: _ => rlet g := make_grid true (plane_at x pl) in Ok (Some g) end)
      = match (match a_wings pl with [] => Ok None | _ :: _ => rlet g := make_grid true pl in Ok (Some g) end) with
        | Ok g => Ok (option_map (grid_at x) g) | Err e => Err e end).
    { cbn [plane_at a_wings]. fold (plane_at x pl). destruct (a_wings pl); [reflexivity|]. rewrite make_grid_at. destruct (make_grid true pl); reflexivity. }
    rewrite W. clear W. match goal with |- context [match a_wings pl with [] => ?p | _ :: _ => ?q end] =>
      destruct (match a_wings pl with [] => p | _ :: _ => q end) as [wings|e] end; cbn [rbind]; [|reflexivity].
    assert (Pt : option_map (fun g => map (@s_r R) (g_sections g)) (option_map (grid_at x) wings)
      = option_map (map (fun v => vadd v x)) (option_map (fun g => map (@s_r R) (g_sections g)) wings)).
    { destruct wings as [g|]; cbn [option_map]; [|reflexivity]. f_equal. cbn [grid_at g_sections]. rewrite !map_map. reflexivity. }
    rewrite Pt, make_props_at. set (pts := option_map (fun g => map (@s_r R) (g_sections g)) wings).
    assert (P : (match a_props (plane_at x pl) with [] => Ok [] | _ :: _ => match make_props (me_prop E) pl pts with Ok gs => Ok (map (pgeom_at x) gs) | Err e => Err e end end)
      = match (match a_props pl with [] => Ok [] | _ :: _ => make_props (me_prop E) pl pts end) with
        | Ok gs => Ok (map (pgeom_at x) gs) | Err e => Err e end).
    { cbn [plane_at a_props]. destruct (a_props pl); reflexivity. }
    rewrite P. clear P. destruct (match a_props pl with [] => Ok [] | _ :: _ => make_props (me_prop E) pl pts end) as [gs|e]; cbn [rbind]; [|reflexivity].
    unfold machup_at. cbn [mm_grid mm_refs mm_props mm_points mm_cg plane_at a_cg]. f_equal. f_equal.
    - destruct wings as [g|]; cbn [option_map]; [|reflexivity]. f_equal. apply refs_at.
    - destruct pts as [q|]; cbn [option_map]; [|reflexivity]. f_equal. apply map_length.
  Qed.
  Lemma init_at X : init_mstate (machup_at X) = init_mstate X.
  Proof.
    unfold init_mstate. cbn [machup_at mm_grid mm_props]. f_equal.
    - destruct (mm_grid X); reflexivity.
    - rewrite map_map. reflexivity.
  Qed.
  Lemma solve_parts_at E X ps a c s : solve_parts E (machup_at X) ps a c s = solve_parts E X ps a c s.
  Proof.
    unfold solve_parts. cbn [machup_at mm_grid mm_props mm_cg mm_points].
    assert (R0 : forall pr a s,
      match option_map (grid_at x) (mm_grid X) with
      | None => (Ok (None, pr, add_fm (match pr with Some p => pt_fm p | None => zero_fm end) zero_fm), a, s)
      | Some g =>
          match ll_solve (me_lsolve E) g (vadd (mm_cg X) x) "linear" (Some a) c (m_ll s) with
          | (Err e, l) => (Err e, a, MkM l (m_ps s))
          | (Ok r, l) =>
              match read_ref l r with
              | None => (Err AttributeError, a, MkM l (m_ps s))
              | Some w => (Ok (Some w, pr, add_fm (match pr with Some p => pt_fm p | None => zero_fm end) (r_total w)), a, MkM l (m_ps s))
              end
          end
      end = match mm_grid X with
      | None => (Ok (None, pr, add_fm (match pr with Some p => pt_fm p | None => zero_fm end) zero_fm), a, s)
      | Some g =>
          match ll_solve (me_lsolve E) g (mm_cg X) "linear" (Some a) c (m_ll s) with
          | (Err e, l) => (Err e, a, MkM l (m_ps s))
          | (Ok r, l) =>
              match read_ref l r with
              | None => (Err AttributeError, a, MkM l (m_ps s))
              | Some w => (Ok (Some w, pr, add_fm (match pr with Some p => pt_fm p | None => zero_fm end) (r_total w)), a, MkM l (m_ps s))
              end
          end
      end).
    { intros pr a0 s0. destruct (mm_grid X) as [g|]; cbn [option_map]; [|reflexivity]. rewrite ll_solve_at. reflexivity. }
    cbv zeta. destruct (mm_props X) as [|g gs]; [apply R0|]. cbn [map].
    change (pgeom_at x g :: map (pgeom_at x) gs) with (map (pgeom_at x) (g :: gs)). rewrite props_solve_at.
    destruct (props_solve _ _ _ _ _ _ _) as [[[pt rows]|e] ss]; [apply R0|reflexivity].
  Qed.
  Lemma host_at E X ps : host_of E (machup_at X) ps =
    let H := host_of E X ps in MkHost (h_solve H) (h_stalled H) (h_refs H) (vadd (h_cg H) x) (h_parts H).
  Proof.
    unfold host_of. cbn [h_solve h_stalled h_refs h_cg h_parts machup_at mm_grid mm_refs mm_props mm_cg]. fold (machup_at X). f_equal.
    - do 3 (apply functional_extensionality; intros ?). now rewrite solve_parts_at.
    - apply functional_extensionality. intros s. destruct (mm_grid X) as [g|]; cbn [option_map]; [apply stall_at|reflexivity].
    - destruct (mm_grid X), (mm_props X); reflexivity.
  Qed.


  (** *** Analyses other than the aerodynamic centre do not read the centre of gravity *)
  Section Host.
    Variables (S : Type) (H : host R S) (E : menv R).
    Definition elsewhere : host R S := MkHost (h_solve H) (h_stalled H) (h_refs H) (vadd (h_cg H) x) (h_parts H).
    Notation H' := elsewhere.
    Lemma do_solve_at : do_solve H' = do_solve H. Proof. reflexivity. Qed.
    Lemma refs_of_at : need_refs H' = need_refs H. Proof. reflexivity. Qed.
    Lemma pressure_at : dynamic_pressure_area H' = dynamic_pressure_area H.
    Proof. unfold dynamic_pressure_area. now rewrite refs_of_at. Qed.
    Lemma around_aero_at : around_aero H' = around_aero H.
    Proof. unfold around_aero. now rewrite do_solve_at. Qed.
    Lemma around_ctl_at : around_ctl H' = around_ctl H.
    Proof. unfold around_ctl. now rewrite do_solve_at. Qed.
    Lemma stability_at : stability_derivatives H' = stability_derivatives H.
    Proof. unfold stability_derivatives, stability_body. now rewrite ?pressure_at, ?refs_of_at, ?around_aero_at. Qed.
    Lemma damping_at : damping_derivatives H' = damping_derivatives H.
    Proof. unfold damping_derivatives, damping_body. now rewrite ?pressure_at, ?refs_of_at, ?around_aero_at. Qed.
    Lemma control_at : control_derivatives H' = control_derivatives H.
    Proof. unfold control_derivatives, control_body. now rewrite pressure_at, refs_of_at, around_ctl_at. Qed.
    Lemma derivatives_at : derivatives H' = derivatives H.
    Proof. unfold derivatives. rewrite stability_at, damping_at, control_at. reflexivity. Qed.
    Lemma lift_loop_at : forall fuel, lift_loop H' fuel = lift_loop H fuel.
    Proof.
      induction fuel as [|fuel IH]; [reflexivity|].
      do 7 (apply functional_extensionality; intros ?). cbn [lift_loop]. rewrite do_solve_at, IH. reflexivity.
    Qed.
    Lemma target_lift_at : target_lift H' = target_lift H.
    Proof. unfold target_lift, lift_body. rewrite do_solve_at, lift_loop_at. reflexivity. Qed.
    Lemma slope_at : slope_of H' = slope_of H.
    Proof. unfold slope_of. now rewrite around_aero_at, around_ctl_at. Qed.
    Lemma trim_loop_at : forall fuel, trim_loop H' E fuel = trim_loop H E fuel.
    Proof.
      induction fuel as [|fuel IH]; [reflexivity|].
      do 7 (apply functional_extensionality; intros ?). cbn [trim_loop]. rewrite do_solve_at, slope_at, IH. reflexivity.
    Qed.
    Lemma pitch_trim_at : pitch_trim H' E = pitch_trim H E.
    Proof. unfold pitch_trim, trim_body. rewrite trim_loop_at. reflexivity. Qed.
    Lemma stall_loop_at : forall fuel, stall_loop H' E fuel = stall_loop H E fuel.
    Proof.
      induction fuel as [|fuel IH]; [reflexivity|].
      apply functional_extensionality; intros ?. cbn [stall_loop]. rewrite do_solve_at, IH. reflexivity.
    Qed.
    Lemma onset_at : onset_body H' E = onset_body H E.
    Proof. unfold onset_body. now rewrite stall_loop_at. Qed.
    Lemma stall_onset_at : stall_onset H' E = stall_onset H E.
    Proof. unfold stall_onset. rewrite onset_at. reflexivity. Qed.
    Lemma airspeed_loop_at : forall fuel, airspeed_loop H' E fuel = airspeed_loop H E fuel.
    Proof.
      induction fuel as [|fuel IH]; [reflexivity|].
      do 7 (apply functional_extensionality; intros ?). cbn [airspeed_loop]. rewrite onset_at, IH. reflexivity.
    Qed.
    Lemma stall_airspeed_at : stall_airspeed H' E = stall_airspeed H E.
    Proof. unfold stall_airspeed, airspeed_body. rewrite onset_at, airspeed_loop_at. reflexivity. Qed.
    Lemma sweep_at : sweep H' = sweep H.
    Proof.
      apply functional_extensionality. induction x0 as [|a l IH]; [reflexivity|]. cbn [sweep]. rewrite do_solve_at, IH. reflexivity.
    Qed.

    (** *** The aerodynamic centre *)
    Lemma under_bind {A B} (f : B -> B) (p : st (world R S) A) k k' w :
      (forall a v, answer_under f (k a v) (k' a v)) -> answer_under f (sbind p k w) (sbind p k' w).
    Proof. intros K. unfold sbind. destruct (p w) as [[a|e] v]; [apply K|reflexivity]. Qed.
    Lemma center_body_at w : answer_under (center_at x) (center_body H E w) (center_body H' E w).
    Proof.
      unfold center_body. rewrite sweep_at, pressure_at, refs_of_at. generalize (sweep_angles : list R). intros xs.
      apply under_bind. intros ao w1. apply under_bind. intros DP w2. apply under_bind. intros l w3.
      apply under_bind. intros r w4. cbv zeta. destruct (lift_fit _ _ _) as [aL0 CL0_a].
      apply under_bind. intros [[CD0 CD0_L] CD0_L2] w5. apply under_bind. intros [[Cm0 CmN] CmA] w6.
      unfold answer_under, sret. cbn [fst snd]. f_equal. f_equal. unfold center_at, elsewhere. cbn [h_cg vx vy vz].
      unfold vadd. cbn [vx vy vz]. rnum. f_equal; ring.
    Qed.
    Lemma find_center_at w : answer_under (center_at x) (find_aero_center H E None w) (find_aero_center H' E None w).
    Proof.
      unfold find_aero_center, write_if. cbn [named]. unfold sbind at 1 3.
      assert (K : answer_under (center_at x)
        ((fun w => if aero_given w then center_body H E w else with_aero default_aero (center_body H E) w) w)
        ((fun w => if aero_given w then center_body H' E w else with_aero default_aero (center_body H' E) w) w)).
      { cbv beta. destruct (aero_given w); [apply center_body_at|]. unfold with_aero.
        pose proof (center_body_at (put_aero (Some default_aero) w)) as K. unfold answer_under in *. rewrite K.
        destruct (center_body H E (put_aero (Some default_aero) w)) as [[v|e] w1]; reflexivity. }
      unfold answer_under in *. cbv beta in K. rewrite K.
      match goal with |- context [fst ?p] => destruct p as [[v|e] w1] end; reflexivity.
    Qed.
  End Host.

  (** *** The whole object *)
  Lemma mu_solve_at E X ps f w : mu_solve E (machup_at X) ps f w = mu_solve E X ps f w.
  Proof.
    unfold mu_solve. rewrite host_at. cbv zeta. fold (elsewhere _ (host_of E X ps)). rewrite do_solve_at.
    destruct (opt_truthy aero_truthy (w_aero w)) as [a|]; [|reflexivity]. rewrite solve_parts_at. reflexivity.
  Qed.
  Lemma blade_rows_at : forall gs ss, prop_distributions (map (pgeom_at x) gs) ss = prop_distributions gs ss.
  Proof. induction gs as [|g gs IH]; intros [|s ss]; cbn [map prop_distributions]; auto. rewrite IH. reflexivity. Qed.
  Lemma find_Vi_at : forall gs ss, map2 (fun g s => find_Vi (pg_stations g) s) (map (pgeom_at x) gs) ss
    = map2 (fun g s => find_Vi (pg_stations g) s) gs ss.
  Proof. induction gs as [|g gs IH]; intros [|s ss]; cbn [map map2]; auto. rewrite IH. reflexivity. Qed.
  Definition blades_of (gs : list (pgeom R)) : st (world R (mstate R)) (list blade_row) :=
    fun w => let m := w_model w in
      match gs with
      | [] => (Ok [], w)
      | gs => (Ok (prop_distributions gs (m_ps m)),
               MkW (w_aero w) (w_ctl w) (MkM (m_ll m) (map2 (fun g s => find_Vi (pg_stations g) s) gs (m_ps m))) (w_files w) (w_log w))
      end.
  Lemma blades_at gs w : blades_of (map (pgeom_at x) gs) w = blades_of gs w.
  Proof.
    destruct gs as [|g gs]; [reflexivity|]. unfold blades_of. cbn [map].
    change (pgeom_at x g :: map (pgeom_at x) gs) with (map (pgeom_at x) (g :: gs)). rewrite blade_rows_at, find_Vi_at. reflexivity.
  Qed.
  Lemma distributions_eq E X ps n : distributions E X ps n None =
    (do_solve (host_of E X ps) ;;;
     m <- sget (@w_model R (mstate R)) ;;
     wings <- match mm_grid X, mm_refs X with Some g, Some r => slift (wing_rows g r (m_ll m)) | _, _ => sret [] end ;;
     blades <- blades_of (mm_props X) ;;
     sret tt ;;;
     sret (wings, blades)).
  Proof. unfold distributions, blades_of. cbn [named]. f_equal. apply functional_extensionality. intros _. f_equal. apply functional_extensionality. intros m. f_equal. apply functional_extensionality. intros q. f_equal.
    apply functional_extensionality. intros w. destruct (mm_props X); reflexivity.
  Qed.
  Lemma distributions_at E X ps n w : answer_under (table_at x) (distributions E X ps n None w) (distributions E (machup_at X) ps n None w).
  Proof.
    rewrite !distributions_eq, host_at. cbv zeta. fold (elsewhere _ (host_of E X ps)). rewrite do_solve_at.
    apply under_bind. intros _ w1. apply under_bind. intros m w2.
    cbn [machup_at mm_grid mm_refs mm_props].
    assert (W : (match option_map (grid_at x) (mm_grid X), mm_refs X with Some g, Some r => slift (wing_rows g r (m_ll m)) | _, _ => sret [] end) w2
      = (match fst ((match mm_grid X, mm_refs X with Some g, Some r => slift (wing_rows g r (m_ll m)) | _, _ => sret [] end) w2) with
         | Ok rows => Ok (map (row_at x) rows) | Err e => Err e end, w2) /\
      snd ((match mm_grid X, mm_refs X with Some g, Some r => slift (wing_rows g r (m_ll m)) | _, _ => sret [] end) w2) = w2).
    { destruct (mm_grid X) as [g|], (mm_refs X) as [r|]; cbn [option_map]; try (split; reflexivity).
      rewrite rows_at. unfold slift. destruct (wing_rows g r (m_ll m)); split; reflexivity. }
    destruct W as [W1 W2]. unfold sbind at 1 4. rewrite W1.
    destruct ((match mm_grid X, mm_refs X with Some g, Some r => slift (wing_rows g r (m_ll m)) | _, _ => sret [] end) w2) as [[rows|e] w3];
      cbn [fst snd] in *; subst w3; [|reflexivity].
    unfold sbind. rewrite blades_at. destruct (blades_of (mm_props X) w2) as [[b|e] w4]; reflexivity.
  Qed.

  Theorem place_does_not_matter E pl :
    match make_machup E pl, make_machup E (plane_at x pl) with
    | Ok X, Ok X' =>
        init_mstate X' = init_mstate X /\
        forall ps, let H := host_of E X ps in let H' := host_of E X' ps in
          (forall f w, mu_solve E X' ps f w = mu_solve E X ps f w) /\
          (forall w, stability_derivatives H' w = stability_derivatives H w) /\
          (forall w, control_derivatives H' w = control_derivatives H w) /\
          (forall w, damping_derivatives H' w = damping_derivatives H w) /\
          (forall f w, derivatives H' f w = derivatives H f w) /\
          (forall L f e w, target_lift H' L f e w = target_lift H L f e w) /\
          (forall L M f e w, pitch_trim H' E L M f e w = pitch_trim H E L M f e w) /\
          (forall f w, stall_onset H' E f w = stall_onset H E f w) /\
          (forall W f e w, stall_airspeed H' E W f e w = stall_airspeed H E W f e w) /\
          (forall w, answer_under (center_at x) (find_aero_center H E None w) (find_aero_center H' E None w)) /\
          (forall n w, answer_under (table_at x) (distributions E X ps n None w) (distributions E X' ps n None w))
    | Err e, Err e' => e = e'
    | _, _ => False
    end.
  Proof.
    rewrite make_machup_at. destruct (make_machup E pl) as [X|e]; [|reflexivity]. split; [apply init_at|]. intros ps. cbv zeta.
    rewrite host_at. cbv zeta. fold (elsewhere _ (host_of E X ps)).
    split; [intros; apply mu_solve_at|]. rewrite stability_at, control_at, damping_at, derivatives_at, target_lift_at, pitch_trim_at, stall_onset_at, stall_airspeed_at.
    do 8 (split; [reflexivity|]). split; [intros; apply find_center_at|]. intros; apply distributions_at.
  Qed.
End Place.
