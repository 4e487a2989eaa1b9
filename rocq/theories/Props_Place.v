(** Where the airplane is drawn does not matter (C75).  Vocabulary: Spec_Place.v. *)
From Coq Require Import Reals ZArith String Bool Arith Lia Lra List.
From Verif Require Import Base Num RVec Geometry Grid LLModel PropModel Spec_Geom MU Spec_MU Spec_Place MU_place
     Prop_thm7 Demo_LL Demo_MU.
Import ListNotations.
Local Open Scope string_scope.
Local Open Scope R_scope.

(** *** C75 *)
(** The airplane and its centre of gravity displaced by [x] (wings attached to other wings
    follow them): either both can be modelled or the same exception is raised; a new object is
    in the same state; and from any state, with or without propeller settings and files, every
    call does exactly the same to the caller's dictionaries, the object and the files and gives
    the same answer, except that the aerodynamic centre and the control points of the table of
    distributions are displaced too. *)
Theorem C75_place_does_not_matter :
  forall (x : vec3 R) E pl,
    match make_machup E pl, make_machup E (plane_at x pl) with
    | Ok X, Ok X' =>
        init_mstate X' = init_mstate X /\
        forall ps, let H := host_of E X ps in let H' := host_of E X' ps in
          (forall f w, mu_solve E X' ps f w = mu_solve E X ps f w) /\
          (forall w, stability_derivatives H' w = stability_derivatives H w) /\
          (forall w, control_derivatives H' w = control_derivatives H w) /\
          (forall w, damping_derivatives H' w = damping_derivatives H w) /\
          (forall f w, derivatives H' f w = derivatives H f w) /\
          (forall L f e w, target_lift H' L f e w = target_lift H L f e w) /\
          (forall L M f e w, pitch_trim H' E L M f e w = pitch_trim H E L M f e w) /\
          (forall f w, stall_onset H' E f w = stall_onset H E f w) /\
          (forall W f e w, stall_airspeed H' E W f e w = stall_airspeed H E W f e w) /\
          (forall w, answer_under (center_at x) (find_aero_center H E None w) (find_aero_center H' E None w)) /\
          (forall n w, answer_under (table_at x) (distributions E X ps n None w) (distributions E X' ps n None w))
    | Err e, Err e' => e = e'
    | _, _ => False
    end.
Proof. exact place_does_not_matter. Qed.
Print Assumptions C75_place_does_not_matter.

(** The wing and propeller of Demo_MU.v three feet further forward and one higher: other
    control points, other propeller, the same answer of solve. *)
Example C75_applies : let x := V3 3 0 (-1) in
  exists E X X' t w', make_machup E tractor = Ok X /\ make_machup E (plane_at x tractor) = Ok X' /\
    option_map (fun g => map (@s_r R) (g_sections g)) (mm_grid X') = Some (map (fun s => vadd (s_r s) x) (g_sections flyer_grid)) /\
    (exists p p', mm_props X = [p] /\ mm_props X' = [p'] /\ pg_pos p' = vadd (pg_pos p) x) /\
    mu_solve E X' (Some [("J", PNum (/ 2))]) None (MkW (Some cruise) None (init_mstate X') [] []) = (Ok t, w') /\
    mu_solve E X (Some [("J", PNum (/ 2))]) None (MkW (Some cruise) None (init_mstate X) [] []) = (Ok t, w').
Proof.
  cbv zeta. set (x := V3 3 0 (-1) : vec3 R). destruct (tractor_solves None None) as (E & X & t & w' & K1 & K2 & K3 & K4).
  exists E, X, (machup_at x X), t, w'. split; [exact K1|]. split; [now rewrite make_machup_at, K1|].
  split. { cbn [machup_at mm_grid]. rewrite K2. cbn [option_map LL_place.grid_at g_sections]. now rewrite map_map. }
  split. { destruct (mm_props X) as [|p [|q l]] eqn:Ep; try discriminate. exists p, (LL_place.pgeom_at x p).
           cbn [machup_at mm_props]. rewrite Ep. auto. }
  split; [|exact K4]. now rewrite mu_solve_at, init_at.
Qed.
