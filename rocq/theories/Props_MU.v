(** Properties C08, C17, C33-C47 and the MachUp part of C27.  Vocabulary: Spec_MU.v,
    Spec_LL.v, Spec_Grid.v.

    [make_machup E pl = Ok X]: the object MachUp(plane) has been constructed; [E] supplies
    the linear solver, matrix inversion, rounding and the propellers' environment.
    [mu_after E X h]: the object after the solves [h] with arbitrary arguments, returning or
    raising.  [mu_solve E X ps f w = (r, w')]: MachUp.solve with the dictionaries and files of
    [w]; [w'] holds the caller's dictionaries ([w_aero], [w_ctl]), the files and the object
    afterwards.  [host_of E X ps] is this object as seen by the analysis routines: something
    that solves, checks for stall and has reference quantities.  Most theorems below hold for
    every such "host" [H]; [w_log] lists the solves made, each with the dictionaries at the
    time and its result.  [prop_state] ([ps]) is an argument only: no routine of the model
    assigns to it. *)
From Coq Require Import Reals ZArith QArith String Bool Arith Lia Lra List.
From Verif Require Import Base Num RVec Geometry Api Grid LLModel PropModel Spec_Grid Spec_Geom Spec_LL Spec_Prop MU Spec_MU
     LL_state LL_R LL_solve LL_props LL_thm LL_thm3 Linalg Linalg2 Demo Demo_LL Prop_thm6 Prop_thm7
     MU_thm MU_thm2 MU_thm3 MU_thm4 MU_thm5 MU_thm6 MU_thm7 MU_thm8 MU_thm9 MU_thm10 MU_thm11 MU_thm12 MU_thm13 MU_thm14
     MU_thm15 MU_thm16 MU_thm17 Demo_MU Demo_MU2 Demo_MU3 Demo_NaN.
Import ListNotations.
Local Open Scope string_scope.
Local Open Scope R_scope.

(** *** C08 *)
(** A product equal to the area presupposes that one does not divide by a zero length. *)
Theorem C08_reference_lengths :
  forall E (pl : airplane R) X, make_machup E pl = Ok X -> a_wings pl <> [] ->
    exists g r, make_grid true pl = Ok g /\ mm_refs X = Some r /\ r_Sw r = g_ref_area g /\
      (forall x, a_lat_ref pl = Some x -> r_lat r = x) /\
      (forall x, a_long_ref pl = Some x -> r_long r = x) /\
      (a_lat_ref pl = None -> a_long_ref pl = None ->
         (forall sg, In sg (wingsegments pl) -> 2 * sg_span sg <= r_lat r) /\
         (r_lat r = 0 \/ exists sg, In sg (wingsegments pl) /\ r_lat r = 2 * sg_span sg)) /\
      (a_long_ref pl = None -> r_lat r <> 0 -> r_lat r * r_long r = r_Sw r) /\
      (forall x, a_lat_ref pl = None -> a_long_ref pl = Some x -> x <> 0 -> r_lat r * r_long r = r_Sw r).
Proof. exact reference_lengths. Qed.
Print Assumptions C08_reference_lengths.

(** The flyer: area 8, lengths 8 and 1. *)
Example C08_applies : make_machup gauss_env flyer = Ok flyer_machup /\ a_wings (flyer (T := R)) <> [] /\
  mm_refs flyer_machup = Some (MkRefs 8 8 1).
Proof. split; [apply flyer_made|]. split; [rewrite flyer_eq; discriminate|reflexivity]. Qed.

(** *** C17 *)
Theorem C17_no_object_with_propellers :
  forall T (N : num_ops T) E cs name pos, let pl := run_calls cs (new_airplane (T := T) name pos) in
    a_props pl <> [] -> forall X, make_machup E pl <> Ok X.
Proof. exact @api_no_object. Qed.
Print Assumptions C17_no_object_with_propellers.

Theorem C17_attribute_error :
  forall T (N : num_ops T) E cs name pos, let pl := run_calls cs (new_airplane (T := T) name pos) in
    a_props pl <> [] -> (a_wings pl <> [] -> exists g, make_grid true pl = Ok g) ->
    make_machup E pl = Err AttributeError.
Proof. exact @api_propeller. Qed.
Print Assumptions C17_attribute_error.

(** Without propellers the object exists as soon as the wings can be discretised ... *)
Theorem C17_without_propellers :
  forall T (N : num_ops T) E (pl : airplane T), a_props pl = [] ->
    ((exists X, make_machup E pl = Ok X) <-> (a_wings pl <> [] -> exists g, make_grid true pl = Ok g)).
Proof. exact @api_without_propeller. Qed.
Print Assumptions C17_without_propellers.

(** ... and the units of an airplane read from a file are known whatever is done to it later. *)
Theorem C17_files_have_units :
  forall T (N : num_ops T) data name pos cs (pl : airplane T),
    build_from_file data (new_airplane name pos) = (Ok tt, pl) -> exists u, get_units (run_calls cs pl) = Ok u.
Proof. exact @file_units_known. Qed.
Print Assumptions C17_files_have_units.

(** The flyer with a propeller added through the API. *)
Definition api_tractor : airplane R :=
  run_calls (flyer_calls ++ [CAddProp "main" [("num_of_blades", VInt 3)]])%list (new_airplane "flyer" None).
Example C17_applies : a_props api_tractor <> [] /\ (exists g, make_grid true api_tractor = Ok g) /\
  make_machup gauss_env api_tractor = Err AttributeError.
Proof.
  assert (Ea : api_tractor = snd (add_prop "main" [("num_of_blades", VInt 3)] flyer)).
  { unfold api_tractor, run_calls. rewrite fold_left_app. reflexivity. }
  unfold add_prop in Ea. destruct (make_prop "main" [("num_of_blades", VInt 3)]) as [p|e] eqn:Em; [|discriminate]. cbn [snd] in Ea.
  assert (Hp : a_props api_tractor <> []). { rewrite Ea. cbn [set_props a_props]. intros C. pose proof (dget_dset_same (a_props (flyer (T := R))) "main" p) as Q. rewrite C in Q. discriminate. }
  assert (Hg : exists g, make_grid true api_tractor = Ok g).
  { exists flyer_grid. rewrite Ea, grid_props. exact (flyer_grid_ok true). }
  split; [exact Hp|]. split; [exact Hg|]. exact (api_propeller gauss_env _ "flyer" None Hp (fun _ => Hg)).
Qed.

(** *** C27 (MachUp.solve) *)
(** The dictionary returned is a new one, holds the forces computed by this call, and no
    sequence [ks] of later calls changes it. *)
Theorem C27_results_are_fresh_and_stay :
  forall T (N : num_ops T) E X k q p q', obj_step E X k q = (Ok p, q') ->
    nth_error (snd q) p = None /\
    (exists f w', mu_solve E (with_cg (oc_cg k) X) (oc_ps k) (oc_file k) (MkW (oc_aero k) (oc_ctl k) (fst q) [] []) = (Ok f, w') /\
      forall ks, nth_error (snd (obj_after E X ks q')) p =
        Some [("FL", FL f); ("FD", FD f); ("FS", FS f); ("FX", FX f); ("FY", FY f); ("FZ", FZ f);
              ("MX", MX f); ("MY", MY f); ("MZ", MZ f)]).
Proof. exact @results_stay. Qed.
Print Assumptions C27_results_are_fresh_and_stay.

Example C27_applies_to_MachUp : exists p q',
  obj_step gauss_env flyer_machup (MkObjCall (Some (straight 10 1)) None None vzero None) (init_mstate flyer_machup, []) = (Ok p, q').
Proof.
  destruct (flyer_solves 10 1 None None [] ltac:(lra)) as (res & w' & K & _).
  unfold obj_step. cbn [oc_aero oc_ctl oc_ps oc_cg oc_file fst snd]. rewrite solve_obj_run.
  change (with_cg vzero flyer_machup) with flyer_machup. rewrite K. eauto.
Qed.

(** *** C33 *)
(** [p]: propeller total, [q]: wing total; the wings see the flow dictionary [a'], which is the
    caller's with the velocities computed by the propellers, if there are any, as local_state. *)
Theorem C33_solve_adds_the_parts :
  forall T (N : num_ops T) E X ps f (w : world T (mstate T)) a t w', w_aero w = Some a -> given a ->
    mu_solve E X ps f w = (Ok t, w') ->
    exists p q a', (forall part, In part components -> part t = nadd (part p) (part q)) /\
      (mm_props X = [] -> (forall part, In part components -> part p = n0) /\ a' = a) /\
      (mm_props X <> [] -> exists pt rows ss,
         props_solve (me_prop E) (mm_cg X) (mm_points X) (Some a) ps (mm_props X) (m_ps (w_model w)) = (Ok (pt, rows), ss) /\
         p = pt_fm pt /\ an a' = an a /\ als a' = match rows with Some r => Some r | None => als a end) /\
      (mm_grid X = None -> forall part, In part components -> part q = n0) /\
      (forall g, mm_grid X = Some g -> exists s res,
         ll_solve (me_lsolve E) g (mm_cg X) "linear" (Some a') (w_ctl w) (m_ll (w_model w)) = (Ok TheResultsDict, s) /\
         l_results s = Some res /\ q = r_total res).
Proof. exact @combined. Qed.
Print Assumptions C33_solve_adds_the_parts.

Theorem C33_default_flow :
  forall T (N : num_ops T) E X ps f (w : world T (mstate T)), omitted_aero (w_aero w) -> named f = None ->
    let v := mu_solve E X ps f (MkW (Some (MkAero [("V_mag", nint 10); ("rho", ndec 23769 7); ("alpha", n0)] None))
                                    (w_ctl w) (w_model w) (w_files w) (w_log w)) in
    fst (mu_solve E X ps f w) = fst v /\ w_model (snd (mu_solve E X ps f w)) = w_model (snd v).
Proof. intros T N E X ps f w Ho. exact (solve_default E X ps f w (omitted_none _ Ho)). Qed.
Print Assumptions C33_default_flow.

(** An airplane with wings and a propeller, solved. *)
Example C33_applies : exists E X t w', make_machup E tractor = Ok X /\ mm_grid X <> None /\ mm_props X <> [] /\
  mu_solve E X (Some [("J", PNum (/ 2))]) None (MkW (Some cruise) None (init_mstate X) [] []) = (Ok t, w').
Proof.
  destruct (tractor_solves None None) as (E & X & t & w' & K1 & K2 & K3 & K4). exists E, X, t, w'.
  split; [exact K1|]. split; [rewrite K2; discriminate|]. split; [|exact K4]. intros C. rewrite C in K3. discriminate.
Qed.

(** *** C34 *)
Theorem C34_what_solve_changes :
  forall T (N : num_ops T) E (pl : airplane T) X ps f (w : world T (mstate T)), make_machup E pl = Ok X ->
    let w' := snd (mu_solve E X ps f w) in
    w_ctl w' = w_ctl w /\ (w_aero w = None -> w_aero w' = None) /\
    (forall a, w_aero w = Some a -> exists a', w_aero w' = Some a' /\ an a' = an a /\
       (a_wings pl = [] \/ a_props pl = [] -> a' = a) /\
       (forall t, given a -> a_wings pl <> [] -> a_props pl <> [] -> fst (mu_solve E X ps f w) = Ok t ->
          exists g rows, make_grid true pl = Ok g /\ als a' = Some rows /\ List.length rows = List.length (g_sections g))).
Proof. exact @solve_effects. Qed.
Print Assumptions C34_what_solve_changes.

(** In particular, what the analysis routines assume of their solves. *)
Theorem C34_solve_keeps_numbers :
  forall T (N : num_ops T) E X ps, keeps_numbers (host_of (T := T) E X ps).
Proof. exact @host_keeps. Qed.
Print Assumptions C34_solve_keeps_numbers.

(** The finding: a dictionary with local_state, given to an airplane without propellers, is
    solved as if its airspeed and density had any other value. *)
Theorem C34_left_over_local_state :
  forall E X ps (a : aero_state R) rows V V' rho' c s,
    mm_props X = [] -> als a = Some rows -> dget (an a) "V_mag" = Some V -> 0 < V -> 0 < V' ->
    fst (fst (h_solve (host_of E X ps) (MkAero (dset (dset (an a) "V_mag" V') "rho" rho') (Some rows)) c s)) =
    fst (fst (h_solve (host_of E X ps) a c s)).
Proof. exact solve_ignores. Qed.
Print Assumptions C34_left_over_local_state.

(** The dictionary used with the tractor, then with the flyer at twice the airspeed: the flyer's
    solve returns, with the forces of the old airspeed. *)
Example C34_applies : exists E X t w' a rows,
  make_machup E tractor = Ok X /\
  mu_solve E X (Some [("J", PNum (/ 2))]) None (MkW (Some cruise) None (init_mstate X) [] []) = (Ok t, w') /\
  w_aero w' = Some a /\ als a = Some rows /\ dget (an a) "V_mag" = Some 100 /\
  exists f a' s', h_solve (host_of easy_env flyer_machup None) (MkAero (dset (dset (an a) "V_mag" 200) "rho" 1) (Some rows)) None
                    (init_mstate flyer_machup) = (Ok f, a', s').
Proof.
  destruct (tractor_solves None None) as (E & X & t & w' & K1 & K2 & K3 & K4).
  destruct (solve_effects E tractor X (Some [("J", PNum (/ 2))]) None (MkW (Some cruise) None (init_mstate X) [] []) K1) as (_ & _ & Q).
  rewrite K4 in Q. cbn [snd fst] in Q. destruct (Q cruise eq_refl) as (a & Q1 & Q2 & _ & Q3).
  assert (Ew : a_wings tractor <> []) by (unfold tractor; rewrite flyer_eq; discriminate).
  destruct (Q3 t ltac:(left; discriminate) Ew ltac:(discriminate) eq_refl) as (g & rows & G1 & G2 & G3).
  rewrite tractor_grid in G1. injection G1 as <-.
  exists E, X, t, w', a, rows. split; [exact K1|]. split; [exact K4|]. split; [exact Q1|]. split; [exact G2|].
  split; [rewrite Q2; reflexivity|].
  set (b := MkAero _ (Some rows)).
  destruct (wings_answer (me_lsolve easy_env) flyer_grid vzero b None (init_ll (g_num flyer_grid))) as (l & res & B1 & B2).
  { discriminate. } { cbn. right. exact G3. }
  eexists _, _, _. cbn [host_of h_solve]. unfold solve_parts. cbn [flyer_machup mm_props mm_grid mm_cg init_mstate m_ll].
  rewrite B1. cbn [read_ref]. rewrite B2. reflexivity.
Qed.

(** *** C35 *)
Theorem C35_file_without_flow_raises :
  forall T (N : num_ops T) E X ps n (w : world T (mstate T)), omitted_aero (w_aero w) -> n <> "" ->
    w_files (snd (mu_solve E X ps (Some n) w)) = w_files w /\
    exists e, fst (mu_solve E X ps (Some n) w) = Err e /\
      (forall t, fst (mu_solve E X ps None w) = Ok t -> e = UnboundLocalError).
Proof. exact @solve_file_omitted. Qed.
Print Assumptions C35_file_without_flow_raises.

Theorem C35_file_with_flow :
  forall T (N : num_ops T) E X ps n (w : world T (mstate T)) a, w_aero w = Some a -> given a -> n <> "" ->
    let w' := snd (mu_solve E X ps (Some n) w) in
    match fst (mu_solve E X ps (Some n) w) with
    | Ok t => exists wing prop, w_files w' = dset (w_files w) n [F_solve wing prop t] /\
        wing = match mm_grid X with Some _ => l_results (m_ll (w_model w')) | None => None end /\
        (mm_grid X <> None -> wing <> None) /\
        (mm_props X = [] -> prop = None) /\
        (mm_props X <> [] -> exists pt rows ss,
           props_solve (me_prop E) (mm_cg X) (mm_points X) (Some a) ps (mm_props X) (m_ps (w_model w)) = (Ok (pt, rows), ss) /\
           prop = Some pt)
    | Err _ => w_files w' = w_files w
    end.
Proof. exact @solve_file_given. Qed.
Print Assumptions C35_file_with_flow.

Example C35_applies : exists res w',
  mu_solve gauss_env flyer_machup None (Some "results.json")
    (MkW (Some (straight 10 1)) None (init_mstate flyer_machup) [] []) = (Ok (add_fm zero_fm (r_total res)), w').
Proof. destruct (flyer_solves 10 1 None (Some "results.json") [] ltac:(lra)) as (res & w' & K & _). eauto. Qed.
(** without a flow dictionary the computation succeeds, the call does not *)
Example C35_applies_omitted : exists t,
  fst (mu_solve easy_env flyer_machup None None (MkW None None (init_mstate flyer_machup) [] [])) = Ok t.
Proof.
  set (w := MkW None None (init_mstate flyer_machup) [] []).
  destruct (solve_omitted easy_env flyer_machup None None w (omitted_none _ (or_introl eq_refl))) as (r & a' & s' & P & _ & _ & _ & _ & Q).
  rewrite Q. cbn [named]. unfold solve_parts in P. cbn [flyer_machup mm_props mm_grid mm_cg w w_ctl w_model init_mstate m_ll] in P.
  destruct (wings_answer (me_lsolve easy_env) flyer_grid vzero (default_aero) None (init_ll (g_num flyer_grid))) as (l & res & B1 & B2).
  { discriminate. } { right. split; discriminate. }
  rewrite B1 in P. cbn [read_ref] in P. rewrite B2 in P. injection P as <- _ _. eexists. reflexivity.
Qed.

(** *** C36 *)
Theorem C36_stability_derivatives :
  forall S (H : host R S), keeps_numbers H -> forall w a d w',
    w_aero w = Some a -> given a -> stability_derivatives H w = (Ok d, w') ->
    exists r k1 k2 k3 k4 b1 f1 b2 f2 a',
      let alpha := entry (an a) "alpha" in let beta := entry (an a) "beta" in
      let level := dset (an a) "alpha" alpha in let q := dynamic_pressure (an a) * r_Sw r in
      h_refs H = Some r /\
      w_log w' = (w_log w ++ [k1; k2; k3; k4])%list /\ performed H (w_model w) [k1; k2; k3; k4] (w_model w') /\
      solved_at k1 (dset (an a) "alpha" (alpha - 1 / 2)) (w_ctl w) b1 /\
      solved_at k2 (dset (an a) "alpha" (alpha + 1 / 2)) (w_ctl w) f1 /\
      solved_at k3 (dset level "beta" (beta - 1 / 2)) (w_ctl w) b2 /\
      solved_at k4 (dset level "beta" (beta + 1 / 2)) (w_ctl w) f2 /\
      central_differences d "_a" (r_lat r) (r_long r) q (degrees (1 / 2)) f1 b1 /\
      central_differences d "_b" (r_lat r) (r_long r) q (degrees (1 / 2)) f2 b2 /\
      w_ctl w' = w_ctl w /\ w_files w' = w_files w /\ w_aero w' = Some a' /\
      dget (an a') "alpha" = Some alpha /\ dget (an a') "beta" = Some beta /\
      (forall key, key <> "alpha" -> key <> "beta" -> dget (an a') key = dget (an a) key).
Proof. exact @stability_whole. Qed.
Print Assumptions C36_stability_derivatives.

(** For airplanes without propellers the solves are those of a new object, whatever was solved
    before: the derivatives are central differences of one function of the dictionaries. *)
Theorem C36_of_wings :
  forall E X ps, mm_props X = [] -> forall w a c h d w',
    w_aero w = Some a -> given a -> als a = None -> w_ctl w = Some c -> c <> [] -> w_model w = mu_after E X h ->
    stability_derivatives (host_of E X ps) w = (Ok d, w') ->
    exists r, mm_refs X = Some r /\ stability_group (forces_of E X ps) r (an a) c d.
Proof. exact stability_wings'. Qed.
Print Assumptions C36_of_wings.

Theorem C36_default_flow :
  forall S (H : host R S) w, omitted_aero (w_aero w) ->
    let v := stability_derivatives H (MkW (Some (MkAero [("V_mag", nint 10); ("rho", ndec 23769 7); ("alpha", n0)] None))
                                          (w_ctl w) (w_model w) (w_files w) (w_log w)) in
    stability_derivatives H w = (fst v, MkW (w_aero w) (w_ctl (snd v)) (w_model (snd v)) (w_files (snd v)) (w_log (snd v))).
Proof. exact @stability_default. Qed.
Print Assumptions C36_default_flow.

(** The flyer, after any history, with any flow that has airspeed and density. *)
Definition flyer_world (h : list (mu_call R)) (c : dict R) : world R (mstate R) :=
  MkW (Some cruise) (Some c) (mu_after easy_env flyer_machup h) [] [].
Lemma cruise_usable : usable_aero cruise.
Proof. repeat split; discriminate. Qed.
Example C36_applies : forall h c, exists d w',
  stability_derivatives (host_of easy_env flyer_machup None) (flyer_world h c) = (Ok d, w').
Proof.
  intros h c. destruct (wings_run_stability easy_env flyer_machup None flyer_grid eq_refl eq_refl (ex_intro _ _ eq_refl) ltac:(discriminate)
    (flyer_world h c) cruise c eq_refl cruise_usable eq_refl) as (d & w' & K & _). eauto.
Qed.

(** *** C37 *)
Theorem C37_damping_derivatives :
  forall S (H : host R S), keeps_numbers H -> forall w a d w',
    w_aero w = Some a -> given a -> damping_derivatives H w = (Ok d, w') ->
    exists r k1 k2 k3 k4 k5 k6 b1 f1 b2 f2 b3 f3 a',
      let V := match dget (an a) "V_mag" with Some x => x | None => 10 end in
      let p := entry (an a) "roll_rate" in let q := entry (an a) "pitch_rate" in let y := entry (an a) "yaw_rate" in
      (* rates whose non-dimensional value is 0.005 *)
      let dlat := / 200 * (2 * V / r_lat r) in let dlong := / 200 * (2 * V / r_long r) in
      let e1 := dset (an a) "roll_rate" p in let e2 := dset e1 "pitch_rate" q in
      let qS := dynamic_pressure (an a) * r_Sw r in
      let ks := [k1; k2; k3; k4; k5; k6] in
      h_refs H = Some r /\ w_log w' = (w_log w ++ ks)%list /\ performed H (w_model w) ks (w_model w') /\
      solved_at k1 (dset (an a) "roll_rate" (p - dlat)) (w_ctl w) b1 /\
      solved_at k2 (dset (an a) "roll_rate" (p + dlat)) (w_ctl w) f1 /\
      solved_at k3 (dset e1 "pitch_rate" (q - dlong)) (w_ctl w) b2 /\
      solved_at k4 (dset e1 "pitch_rate" (q + dlong)) (w_ctl w) f2 /\
      solved_at k5 (dset e2 "yaw_rate" (y - dlat)) (w_ctl w) b3 /\
      solved_at k6 (dset e2 "yaw_rate" (y + dlat)) (w_ctl w) f3 /\
      central_differences d "_pbar" (r_lat r) (r_long r) qS (/ 200) f1 b1 /\
      central_differences d "_qbar" (r_lat r) (r_long r) qS (/ 200) f2 b2 /\
      central_differences d "_rbar" (r_lat r) (r_long r) qS (/ 200) f3 b3 /\
      w_ctl w' = w_ctl w /\ w_files w' = w_files w /\ w_aero w' = Some a' /\
      dget (an a') "roll_rate" = Some p /\ dget (an a') "pitch_rate" = Some q /\
      dget (an a') "yaw_rate" = Some q /\                               (* the finding *)
      (forall key, ~ In key ["roll_rate"; "pitch_rate"; "yaw_rate"] -> dget (an a') key = dget (an a) key).
Proof. exact @damping_whole. Qed.
Print Assumptions C37_damping_derivatives.

Theorem C37_of_wings :
  forall E X ps, mm_props X = [] -> forall w a c h d w',
    w_aero w = Some a -> given a -> als a = None -> w_ctl w = Some c -> c <> [] -> w_model w = mu_after E X h ->
    damping_derivatives (host_of E X ps) w = (Ok d, w') ->
    exists r, mm_refs X = Some r /\ damping_group (forces_of E X ps) r (an a) c d.
Proof. exact damping_wings'. Qed.
Print Assumptions C37_of_wings.

Theorem C37_default_flow :
  forall S (H : host R S) w, omitted_aero (w_aero w) ->
    let v := damping_derivatives H (MkW (Some (MkAero [("V_mag", nint 10); ("rho", ndec 23769 7)] None))
                                        (w_ctl w) (w_model w) (w_files w) (w_log w)) in
    damping_derivatives H w = (fst v, MkW (w_aero w) (w_ctl (snd v)) (w_model (snd v)) (w_files (snd v)) (w_log (snd v))).
Proof. exact @damping_default. Qed.
Print Assumptions C37_default_flow.

(** The flyer in a steady turn with yaw rate 1 and no pitch rate: the yaw rate is lost. *)
Example C37_applies : forall h c, exists d w' a,
  damping_derivatives (host_of easy_env flyer_machup None)
    (MkW (Some (MkAero (dset (an cruise) "yaw_rate" 1) None)) (Some c) (mu_after easy_env flyer_machup h) [] []) = (Ok d, w') /\
  w_aero w' = Some a /\ dget (an a) "yaw_rate" = Some 0.
Proof.
  intros h c. set (w := MkW _ _ _ _ _).
  destruct (wings_run_damping easy_env flyer_machup None flyer_grid eq_refl eq_refl (ex_intro _ _ eq_refl) ltac:(discriminate)
    w _ c eq_refl (usable_set cruise "yaw_rate" 1 cruise_usable) eq_refl) as (d & w' & K).
  destruct (damping_whole _ (host_keeps easy_env flyer_machup None) w _ d w' eq_refl ltac:(left; discriminate) K)
    as (r & k1 & k2 & k3 & k4 & k5 & k6 & b1 & f1 & b2 & f2 & b3 & f3 & a' & _ & _ & _ & _ & _ & _ & _ & _ & _ & _ & _ & _ & _ & _ & A & _ & _ & Y & _).
  exists d, w', a'. auto.
Qed.

(** *** C38 *)
Theorem C38_control_derivatives :
  forall S (H : host R S), keeps_numbers H -> forall w a c d w',
    w_aero w = Some a -> w_ctl w = Some c -> c <> [] -> control_derivatives H w = (Ok d, w') ->
    exists r k1 k2 k3 k4 k5 k6 k7 k8 b1 f1 b2 f2 b3 f3 b4 f4 a' c',
      let x0 := entry c "aileron" in let x1 := entry c "elevator" in
      let x2 := entry c "rudder" in let x3 := entry c "flap" in
      let c1 := dset c "aileron" x0 in let c2 := dset c1 "elevator" x1 in let c3 := dset c2 "rudder" x2 in
      let q := dynamic_pressure (an a) * r_Sw r in
      let ks := [k1; k2; k3; k4; k5; k6; k7; k8] in
      h_refs H = Some r /\ w_log w' = (w_log w ++ ks)%list /\ performed H (w_model w) ks (w_model w') /\
      map (@k_c R S) ks = map Some
        [dset c "aileron" (x0 - 1 / 4); dset c "aileron" (x0 + 1 / 4);
         dset c1 "elevator" (x1 - 1 / 4); dset c1 "elevator" (x1 + 1 / 4);
         dset c2 "rudder" (x2 - 1 / 4); dset c2 "rudder" (x2 + 1 / 4);
         dset c3 "flap" (x3 - 1 / 4); dset c3 "flap" (x3 + 1 / 4)] /\
      map (@k_r R S) ks = map Ok [b1; f1; b2; f2; b3; f3; b4; f4] /\
      (given a -> forall k, In k ks -> an (k_a k) = an a) /\
      (~ given a -> forall k, In k ks -> k_a k = MkAero [("V_mag", 10); ("rho", 23769 / 10000000); ("alpha", 0)] None) /\
      central_differences d "_da" (r_lat r) (r_long r) q (degrees (1 / 4)) f1 b1 /\
      central_differences d "_de" (r_lat r) (r_long r) q (degrees (1 / 4)) f2 b2 /\
      central_differences d "_dr" (r_lat r) (r_long r) q (degrees (1 / 4)) f3 b3 /\
      central_differences d "_df" (r_lat r) (r_long r) q (degrees (1 / 4)) f4 b4 /\
      w_files w' = w_files w /\ w_aero w' = Some a' /\ an a' = an a /\ w_ctl w' = Some c' /\
      dget c' "aileron" = Some x0 /\ dget c' "elevator" = Some x1 /\ dget c' "rudder" = Some x2 /\ dget c' "flap" = Some x3 /\
      (forall key, ~ In key ["aileron"; "elevator"; "rudder"; "flap"] -> dget c' key = dget c key).
Proof. exact @control_whole. Qed.
Print Assumptions C38_control_derivatives.

Theorem C38_of_wings :
  forall E X ps, mm_props X = [] -> forall w a c h d w',
    w_aero w = Some a -> given a -> als a = None -> w_ctl w = Some c -> c <> [] -> w_model w = mu_after E X h ->
    control_derivatives (host_of E X ps) w = (Ok d, w') ->
    exists r, mm_refs X = Some r /\ control_group (forces_of E X ps) r (an a) c d.
Proof. exact control_wings'. Qed.
Print Assumptions C38_of_wings.

Theorem C38_without_flow_raises :
  forall S (H : host R S) w, w_aero w = None -> control_derivatives H w = (Err AttributeError, w).
Proof. exact @control_no_aero. Qed.
Print Assumptions C38_without_flow_raises.

Theorem C38_default_controls :
  forall S (H : host R S) w, omitted_control (w_ctl w) ->
    let v := control_derivatives H (MkW (w_aero w) (Some [("aileron", n0); ("elevator", n0); ("rudder", n0); ("flap", n0)])
                                        (w_model w) (w_files w) (w_log w)) in
    control_derivatives H w = (fst v, MkW (w_aero (snd v)) (w_ctl w) (w_model (snd v)) (w_files (snd v)) (w_log (snd v))).
Proof. exact @control_default. Qed.
Print Assumptions C38_default_controls.

Example C38_applies : forall h c, exists d w',
  control_derivatives (host_of easy_env flyer_machup None) (flyer_world h c) = (Ok d, w').
Proof.
  intros h c. exact (wings_run_control easy_env flyer_machup None flyer_grid eq_refl eq_refl (ex_intro _ _ eq_refl) ltac:(discriminate)
    (flyer_world h c) cruise c eq_refl cruise_usable eq_refl).
Qed.

(** *** C39 *)
(** The three groups are computed by the three calls above, in this order, each on what the
    previous one left; the caller's dictionaries end up as the last one leaves them. *)
Theorem C39_three_groups_in_turn :
  forall T (N : num_ops T) S (H : host T S) f w d w' r, h_refs H = Some r -> derivatives H f w = (Ok d, w') ->
    exists stab cont damp w1 w2 w3 ma la,
      stability_derivatives H w = (Ok stab, w1) /\ control_derivatives H w1 = (Ok cont, w2) /\
      damping_derivatives H w2 = (Ok damp, w3) /\
      dget stab "Cm_a" = Some ma /\ dget stab "CL_a" = Some la /\
      d = Answer (MkDer (dset stab "static_margin" (ndiv (nopp ma) la)) cont damp) /\
      w' = (match named f with Some n => put_file n [F_derivs (MkDer (dset stab "static_margin" (ndiv (nopp ma) la)) cont damp)] w3
            | None => w3 end).
Proof. exact @derivatives_ok. Qed.
Print Assumptions C39_three_groups_in_turn.

Theorem C39_of_wings :
  forall E X ps, mm_props X = [] -> forall f w a c h d w',
    w_aero w = Some a -> given a -> als a = None -> w_ctl w = Some c -> c <> [] -> w_model w = mu_after E X h ->
    derivatives (host_of E X ps) f w = (Ok (Answer d), w') ->
    exists r, mm_refs X = Some r /\
      let a' := rewritten (an a) ["alpha"; "beta"] in
      let c' := rewritten c ["aileron"; "elevator"; "rudder"; "flap"] in
      stability_group (forces_of E X ps) r (an a) c (dv_stab d) /\ control_group (forces_of E X ps) r a' c (dv_cont d) /\
      damping_group (forces_of E X ps) r a' c' (dv_damp d) /\
      exists ma la, dget (dv_stab d) "Cm_a" = Some ma /\ dget (dv_stab d) "CL_a" = Some la /\
        dget (dv_stab d) "static_margin" = Some (- ma / la).
Proof. exact derivatives_groups. Qed.
Print Assumptions C39_of_wings.

(** The finding: without control_state the damping group belongs to a flap deflection of 1/4. *)
Theorem C39_flap_left_over :
  forall E X ps, mm_props X = [] -> forall f w a h d w',
    w_aero w = Some a -> given a -> als a = None -> omitted_control (w_ctl w) -> w_model w = mu_after E X h ->
    mm_grid X <> None -> derivatives (host_of E X ps) f w = (Ok (Answer d), w') ->
    exists r, mm_refs X = Some r /\
      damping_group (forces_of E X ps) r (rewritten (an a) ["alpha"; "beta"])
                    [("aileron", 0); ("elevator", 0); ("rudder", 0); ("flap", 1 / 4)] (dv_damp d).
Proof. exact derivatives_leftover. Qed.
Print Assumptions C39_flap_left_over.

Theorem C39_without_flow_raises :
  forall S (H : host R S) f w r, h_refs H = Some r -> w_aero w = None -> exists e, fst (derivatives H f w) = Err e.
Proof. exact @derivatives_no_aero. Qed.
Print Assumptions C39_without_flow_raises.

Theorem C39_without_wings :
  forall T (N : num_ops T) S (H : host T S) f w, h_refs H = None ->
    derivatives H f w = match named f with
                        | Some n => (Ok (ErrorRecord "underivable"), put_file n [F_error "underivable"] w)
                        | None => (Err RuntimeError, w)
                        end.
Proof. exact @derivatives_no_wings. Qed.
Print Assumptions C39_without_wings.

Example C39_applies : forall h c, exists d w',
  derivatives (host_of easy_env flyer_machup None) None (flyer_world h c) = (Ok (Answer d), w').
Proof.
  intros h c. exact (wings_run_derivatives easy_env flyer_machup None flyer_grid eq_refl eq_refl (ex_intro _ _ eq_refl) ltac:(discriminate)
    None (flyer_world h c) cruise c eq_refl cruise_usable eq_refl).
Qed.

(** *** C40 *)
(** If the call raises, then because its last solve raised, and the caller's dictionary is left
    at one of the perturbed values. *)
Theorem C40_stability_leaves_perturbed_flow :
  forall S (H : host R S), keeps_numbers H -> forall w a r e w', h_refs H = Some r -> w_aero w = Some a -> given a ->
    stability_derivatives H w = (Err e, w') ->
    exists l k a', w_log w' = (w_log w ++ l ++ [k])%list /\ w_ctl w' = w_ctl w /\ w_files w' = w_files w /\
      w_aero w' = Some a' /\ k_r k = Err e /\
      let alpha := entry (an a) "alpha" in let beta := entry (an a) "beta" in
      let restored := dset (an a) "alpha" alpha in
      In (an a') [dset (an a) "alpha" (alpha - 1 / 2); dset (an a) "alpha" (alpha + 1 / 2);
                  dset restored "beta" (beta - 1 / 2); dset restored "beta" (beta + 1 / 2)].
Proof. exact @stability_fails'. Qed.
Print Assumptions C40_stability_leaves_perturbed_flow.

Theorem C40_damping_leaves_perturbed_flow :
  forall S (H : host R S), keeps_numbers H -> forall w a r e w', h_refs H = Some r -> w_aero w = Some a -> given a ->
    damping_derivatives H w = (Err e, w') ->
    exists l k a', w_log w' = (w_log w ++ l ++ [k])%list /\ w_ctl w' = w_ctl w /\ w_files w' = w_files w /\
      w_aero w' = Some a' /\ k_r k = Err e /\
      let V := match dget (an a) "V_mag" with Some x => x | None => 10 end in
      let p := entry (an a) "roll_rate" in let q := entry (an a) "pitch_rate" in let y := entry (an a) "yaw_rate" in
      let dlat := / 200 * (2 * V / r_lat r) in let dlong := / 200 * (2 * V / r_long r) in
      let e1 := dset (an a) "roll_rate" p in let e2 := dset e1 "pitch_rate" q in
      In (an a') [dset (an a) "roll_rate" (p - dlat); dset (an a) "roll_rate" (p + dlat);
                  dset e1 "pitch_rate" (q - dlong); dset e1 "pitch_rate" (q + dlong);
                  dset e2 "yaw_rate" (y - dlat); dset e2 "yaw_rate" (y + dlat)].
Proof. exact @damping_fails'. Qed.
Print Assumptions C40_damping_leaves_perturbed_flow.

Theorem C40_control_leaves_perturbed_controls :
  forall S (H : host R S), keeps_numbers H -> forall w a c r e w', h_refs H = Some r -> w_aero w = Some a -> given a ->
    w_ctl w = Some c -> c <> [] -> control_derivatives H w = (Err e, w') ->
    exists l k a' c', w_log w' = (w_log w ++ l ++ [k])%list /\ w_files w' = w_files w /\
      w_aero w' = Some a' /\ an a' = an a /\ w_ctl w' = Some c' /\ k_r k = Err e /\
      let x0 := entry c "aileron" in let x1 := entry c "elevator" in
      let x2 := entry c "rudder" in let x3 := entry c "flap" in
      let c1 := dset c "aileron" x0 in let c2 := dset c1 "elevator" x1 in let c3 := dset c2 "rudder" x2 in
      In c' [dset c "aileron" (x0 - 1 / 4); dset c "aileron" (x0 + 1 / 4);
             dset c1 "elevator" (x1 - 1 / 4); dset c1 "elevator" (x1 + 1 / 4);
             dset c2 "rudder" (x2 - 1 / 4); dset c2 "rudder" (x2 + 1 / 4);
             dset c3 "flap" (x3 - 1 / 4); dset c3 "flap" (x3 + 1 / 4)].
Proof. exact @control_fails'. Qed.
Print Assumptions C40_control_leaves_perturbed_controls.

Theorem C40_flow_without_density :
  forall E X ps g r w a, mm_props X = [] -> mm_grid X = Some g -> mm_refs X = Some r ->
    w_aero w = Some a -> given a -> als a = None -> dget (an a) "rho" = None ->
    exists w', stability_derivatives (host_of E X ps) w = (Err RuntimeError, w') /\
      w_aero w' = Some (numbers (dset (an a) "alpha" (entry (an a) "alpha" - 1 / 2))).
Proof. exact no_rho_stability. Qed.
Print Assumptions C40_flow_without_density.

Example C40_applies : exists w',
  stability_derivatives (host_of gauss_env flyer_machup None)
    (MkW (Some (MkAero [("V_mag", 10); ("alpha", 3)] None)) None (init_mstate flyer_machup) [] []) = (Err RuntimeError, w').
Proof.
  set (w := MkW _ _ _ _ _).
  destruct (no_rho_stability gauss_env flyer_machup None flyer_grid _ w (MkAero [("V_mag", 10); ("alpha", 3)] None)
    eq_refl eq_refl eq_refl eq_refl ltac:(left; discriminate) eq_refl eq_refl) as (w' & K & _). eauto.
Qed.

(** *** C41 *)
(** [w_log w = []]: the list of solves is then that of this call. *)
Theorem C41_target_lift :
  forall T (N : num_ops T) S (H : host T S), keeps_numbers H -> forall target f error w a r w',
    w_aero w = Some a -> given a -> w_log w = [] -> target_lift H target f error w = (r, w') ->
    performed H (w_model w) (w_log w') (w_model w') /\
    w_aero w' = Some a /\ w_ctl w' = w_ctl w /\ (List.length (w_log w') <= 23)%nat /\
    Forall (fun k => k_c k = w_ctl w /\ exists x, an (k_a k) = dset (an a) "alpha" x) (w_log w') /\
    w_files w' = match named f, r with
                 | Some n, Ok (Answer x) => dset (w_files w) n [F_numbers [("alpha", x)]]
                 | Some n, Ok (ErrorRecord m) => dset (w_files w) n [F_error m]
                 | _, _ => w_files w
                 end /\
    match dget (an a) "alpha" with
    | None => r = Err KeyError /\ w_log w' = []
    | Some x0 =>
        (forall k0 l0, w_log w' = k0 :: l0 -> an (k_a k0) = dset (an a) "alpha" x0) /\
        (forall k0 k1 l0, w_log w' = k0 :: k1 :: l0 ->
           an (k_a k1) = dset (an a) "alpha" (nadd (nmul x0 (ndec 15 1)) (ndec 1 1))) /\
        match r with
        | Ok (Answer x) =>
            exists pre k0 k1 x0 y0 x1 y1, w_log w' = (pre ++ [k0; k1])%list /\
              lift_at (an a) (w_ctl w) target k0 x0 y0 /\ lift_at (an a) (w_ctl w) target k1 x1 y1 /\
              x = nsub x1 (ndiv (nmul y1 (nsub x1 x0)) (nsub y1 y0)) /\ nltb (nabs (nsub x x1)) error = true
        | Ok (ErrorRecord m) => m = "unliftable" /\ named f <> None /\ List.length (w_log w') = 23%nat
        | Err e => (e = ZeroDivisionError /\ h_parts H = false) \/
                   (e = RuntimeError /\ named f = None /\ List.length (w_log w') = 23%nat) \/
                   (exists pre k, w_log w' = (pre ++ [k])%list /\ k_r k = Err e)
        end
    end.
Proof.
  intros T N S H Hk target f error w a r w' Ea Ga El K.
  exact (conj (lift_whole' H target f error w a r w' Hk Ea Ga El K) (lift_whole H Hk target f error w a r w' Ea Ga El K)).
Qed.
Print Assumptions C41_target_lift.

(** If lift is [m * alpha + b], the angle returned is the one with the target lift. *)
Theorem C41_affine_lift_is_solved_exactly :
  forall S (H : host R S), keeps_numbers H -> forall (base : dict R) c m b,
    (forall x a s, an a = dset base "alpha" x -> exists f a' s', h_solve H a c s = (Ok f, a', s') /\ FL f = m * x + b) ->
    h_parts H = true -> m <> 0 ->
    forall target error f w a x0, w_aero w = Some a -> an a = base -> given a -> w_ctl w = c ->
      dget (an a) "alpha" = Some x0 -> x0 <> - (1 / 5) -> 0 < error ->
      fst (target_lift H target f error w) = Ok (Answer ((target - b) / m)).
Proof. exact @affine_lift. Qed.
Print Assumptions C41_affine_lift_is_solved_exactly.

(** Without flow dictionary the tolerance is 1e-9 whatever is asked for. *)
Theorem C41_default_flow :
  forall T (N : num_ops T) S (H : host T S) target f error w, omitted_aero (w_aero w) ->
    let v := target_lift H target None (ndec 1 9)
               (MkW (Some (MkAero [("V_mag", nint 10); ("rho", ndec 23769 7); ("alpha", n0)] None)) (w_ctl w) (w_model w) (w_files w) (w_log w)) in
    target_lift H target f error w =
      (fst v, MkW (w_aero w) (w_ctl (snd v)) (w_model (snd v))
                (match named f, fst v with
                 | Some n, Ok (Answer x) => dset (w_files (snd v)) n [F_numbers [("alpha", x)]]
                 | Some n, Ok (ErrorRecord m) => dset (w_files (snd v)) n [F_error m]
                 | _, _ => w_files (snd v)
                 end) (w_log (snd v))).
Proof. exact @lift_default. Qed.
Print Assumptions C41_default_flow.

(** The toy of Demo_MU2.v: lift V_mag + 3 alpha + elevator, here 11 + 3 alpha. *)
Example C41_applies : forall f, exists w',
  target_lift toy 20 f (1 / 1000) (MkW (Some toy_aero) (Some toy_ctl) 0 [] []) = (Ok (Answer ((20 - 11) / 3)), w').
Proof.
  intros f. set (w := MkW _ _ _ _ _ : world R R).
  assert (K : fst (target_lift toy 20 f (1 / 1000) w) = Ok (Answer ((20 - 11) / 3))).
  2: { destruct (target_lift toy 20 f (1 / 1000) w) as [r w']. exists w'. cbn [fst] in K. now rewrite K. }
  refine (affine_lift toy toy_keeps (an toy_aero) (Some toy_ctl) 3 11 _ eq_refl ltac:(lra) 20 (1 / 1000) f w toy_aero 1 eq_refl eq_refl
            ltac:(left; discriminate) eq_refl eq_refl ltac:(lra) ltac:(lra)).
  intros x a s E. eexists _, _, _. split; [reflexivity|]. unfold toy_forces. cbn [FL]. rewrite E, entry_set, entry_other by discriminate.
  unfold entry, toy_ctl, toy_aero. cbn. lra.
Qed.

(** *** C42 *)
(** Whenever 1.5*alpha + 0.1 is alpha (for reals: alpha = -0.2), arithmetic with a not-a-number
    never yields an answer. *)
Theorem C42_coinciding_starting_points :
  forall T (N : num_ops T) E X ps, mm_props X = [] -> forall target error f w a c h x0 x nan,
    has_nan N nan -> w_aero w = Some a -> given a -> w_ctl w = Some c -> c <> [] -> w_model w = mu_after E X h ->
    dget (an a) "alpha" = Some x0 -> nadd (nmul x0 (ndec 15 1)) (ndec 1 1) = x0 ->
    fst (target_lift (host_of E X ps) target f error w) <> Ok (Answer x).
Proof. exact @same_start. Qed.
Print Assumptions C42_coinciding_starting_points.

(** Such a number system, in which the flyer can be built and solved. *)
Example C42_applies : has_nan nan_ops None /\
  make_machup nan_env flyer = Ok nan_machup /\ mm_props nan_machup = [] /\
  nadd (nmul (Some (-1 # 5)%Q) (ndec 15 1)) (ndec 1 1) = Some (-1 # 5)%Q /\
  fst nan_run = Err RuntimeError /\ List.length (w_log (snd nan_run)) = 23%nat.
Proof. exact (conj nan_has nan_runs). Qed.

(** *** C43 *)
(** A Newton step takes nine solves. *)
Theorem C43_pitch_trim :
  forall T (N : num_ops T) S (H : host T S) E L m f error w a c r w', keeps_numbers H ->
    w_aero w = Some a -> given a -> w_ctl w = Some c -> c <> [] -> w_log w = [] -> pitch_trim H E L m f error w = (r, w') ->
    performed H (w_model w) (w_log w') (w_model w') /\ (List.length (w_log w') <= 101 * 9)%nat /\
    match r with
    | Ok (Some (x, y)) =>
        exists pre k a', w_log w' = (pre ++ [k])%list /\ trimmed_at (an a) c L m error k x y /\
          w_aero w' = Some a' /\ an a' = dset (an a) "alpha" x /\ w_ctl w' = Some (dset c "elevator" y) /\
          w_files w' = match named f with Some n => dset (w_files w) n [F_numbers [("alpha", x); ("elevator", y)]] | None => w_files w end
    | Ok None => exists n msg, named f = Some n /\ (msg = "no_elevator" \/ msg = "untrimmable") /\
                   w_files w' = dset (w_files w) n [F_error msg]
    | Err _ => w_files w' = w_files w
    end.
Proof. exact @trim_whole. Qed.
Print Assumptions C43_pitch_trim.

Theorem C43_entry_values_do_not_matter :
  forall T (N : num_ops T) S (H : host T S) E L m f error w a c x0 y0,
    w_aero w = Some a -> given a -> w_ctl w = Some c -> c <> [] ->
    pitch_trim H E L m f error
      (MkW (Some (MkAero (dset (an a) "alpha" x0) (als a))) (Some (dset c "elevator" y0)) (w_model w) (w_files w) (w_log w))
    = pitch_trim H E L m f error w.
Proof. exact @trim_entry. Qed.
Print Assumptions C43_entry_values_do_not_matter.

(** Affine lift and moment: trimmed exactly after one step (or at once, if alpha = elevator = 0
    is good enough). *)
Theorem C43_affine_trim_is_exact :
  forall S (H : host R S) E, keeps_numbers H -> forall (base cbase : dict R) l0 l1 l2 m0 m1 m2,
    (forall x y a s, an a = dset base "alpha" x ->
       exists f a' s', h_solve H a (Some (dset cbase "elevator" y)) s = (Ok f, a', s') /\
         FL f = l0 + l1 * x + l2 * y /\ MY f = m0 + m1 * x + m2 * y) ->
    l1 * m2 - l2 * m1 <> 0 -> exact_inv (me_inv E) -> finds_inv2 (me_inv E) ->
    forall L m error f w a c, 0 < error -> w_aero w = Some a -> given a -> an a = base ->
      w_ctl w = Some c -> c <> [] -> c = cbase -> w_log w = [] ->
      exists x y w', pitch_trim H E L m f error w = (Ok (Some (x, y)), w') /\
        ((x = 0 /\ y = 0 /\ Rabs (l0 - L) < error /\ Rabs (m0 - m) < error /\ List.length (w_log w') = 1%nat) \/
         (l0 + l1 * x + l2 * y = L /\ m0 + m1 * x + m2 * y = m /\ List.length (w_log w') = 10%nat)).
Proof. exact @affine_trim. Qed.
Print Assumptions C43_affine_trim_is_exact.

(** The toy, with matrix inversion by Gauss-Jordan elimination. *)
Example C43_applies : exists x y w',
  pitch_trim toy gauss_env 20 0 (Some "trim.json") (1 / 1000) (MkW (Some toy_aero) (Some toy_ctl) 0 [] []) = (Ok (Some (x, y)), w').
Proof.
  destruct (affine_trim toy gauss_env toy_keeps (an toy_aero) toy_ctl 10 3 1 2 (-1) (-2)) with (L := 20) (m := 0) (error := 1 / 1000)
    (f := Some "trim.json") (w := MkW (Some toy_aero) (Some toy_ctl) 0 [] [] : world R R) (a := toy_aero) (c := toy_ctl) as (x & y & w' & K & _).
  - intros x y a s E. eexists _, _, _. split; [reflexivity|]. unfold toy_forces. cbn [FL MY]. rewrite E, !entry_set, entry_other by discriminate.
    unfold entry, toy_aero. cbn. split; lra.
  - lra.
  - exact gauss_inv_exact.
  - exact gauss_inv_2.
  - lra.
  - reflexivity.
  - left. discriminate.
  - reflexivity.
  - reflexivity.
  - discriminate.
  - reflexivity.
  - reflexivity.
  - eauto.
Qed.

(** *** C44 *)
(** A missing dictionary is replaced, the filename becomes None and the tolerance 1e-9. *)
Theorem C44_defaults_drop_arguments :
  forall T (N : num_ops T) S (H : host T S) E L m f error w, omitted_aero (w_aero w) \/ omitted_control (w_ctl w) ->
    let fly := Some (MkAero [("V_mag", nint 10); ("rho", ndec 23769 7)] None) in
    let neutral := Some [("aileron", n0); ("elevator", n0); ("rudder", n0); ("flap", n0)] in
    (omitted_aero (w_aero w) -> omitted_control (w_ctl w) ->
       let v := pitch_trim H E L m None (ndec 1 9) (MkW fly neutral (w_model w) (w_files w) (w_log w)) in
       pitch_trim H E L m f error w = (fst v, MkW (w_aero w) (w_ctl w) (w_model (snd v)) (w_files (snd v)) (w_log (snd v)))) /\
    (forall c, omitted_aero (w_aero w) -> w_ctl w = Some c -> c <> [] ->
       let v := pitch_trim H E L m None (ndec 1 9) (MkW fly (w_ctl w) (w_model w) (w_files w) (w_log w)) in
       pitch_trim H E L m f error w = (fst v, MkW (w_aero w) (w_ctl (snd v)) (w_model (snd v)) (w_files (snd v)) (w_log (snd v)))) /\
    (forall a, w_aero w = Some a -> given a -> omitted_control (w_ctl w) ->
       let v := pitch_trim H E L m None (ndec 1 9) (MkW (w_aero w) neutral (w_model w) (w_files w) (w_log w)) in
       pitch_trim H E L m f error w = (fst v, MkW (w_aero (snd v)) (w_ctl w) (w_model (snd v)) (w_files (snd v)) (w_log (snd v)))).
Proof. exact @trim_default. Qed.
Print Assumptions C44_defaults_drop_arguments.

(** So the file is not written. *)
Theorem C44_no_file :
  forall T (N : num_ops T) S (H : host T S) E L m f error w r w', keeps_numbers H -> w_log w = [] ->
    omitted_aero (w_aero w) \/ omitted_control (w_ctl w) -> pitch_trim H E L m f error w = (r, w') -> w_files w' = w_files w.
Proof. exact @trim_default_files. Qed.
Print Assumptions C44_no_file.

Example C44_applies : exists x y w',
  pitch_trim toy gauss_env 20 0 (Some "trim.json") (1 / 1000) (MkW None None 0 [] []) = (Ok (Some (x, y)), w') /\ w_files w' = [].
Proof.
  set (w := MkW _ _ _ _ _ : world R R).
  destruct (trim_default toy gauss_env 20 0 (Some "trim.json") (1 / 1000) w (or_introl (or_introl eq_refl))) as (K & _ & _).
  specialize (K (or_introl eq_refl) (or_introl eq_refl)). cbv zeta in K.
  set (d := [("V_mag", nint 10); ("rho", ndec 23769 7)] : dict R) in K.
  set (n := [("aileron", n0); ("elevator", n0); ("rudder", n0); ("flap", n0)] : dict R) in K.
  match type of K with _ = (fst (pitch_trim _ _ _ _ _ _ ?v), _) => set (w1 := v) in K end.
  assert (P : exists x y w', pitch_trim toy gauss_env 20 0 None (ndec 1 9) w1 = (Ok (Some (x, y)), w')).
  { destruct (affine_trim toy gauss_env toy_keeps d n 10 3 1 2 (-1) (-2)) with (L := 20) (m := 0) (error := @ndec R _ 1 9)
      (f := @None string) (w := w1) (a := MkAero d None) (c := n) as (x & y & w' & P & _).
    - intros x y a s E. eexists _, _, _. split; [reflexivity|]. unfold toy_forces. cbn [FL MY]. rewrite E, !entry_set, entry_other by discriminate.
      unfold entry, d. cbn. split; lra.
    - lra.
    - exact gauss_inv_exact.
    - exact gauss_inv_2.
    - rnum. unfold Rdec. cbn. lra.
    - reflexivity.
    - left. discriminate.
    - reflexivity.
    - reflexivity.
    - discriminate.
    - reflexivity.
    - reflexivity.
    - eauto. }
  destruct P as (x & y & w' & P). rewrite P in K. cbn [fst snd] in K. exists x, y. eexists. split; [exact K|].
  exact (trim_default_files toy gauss_env 20 0 (Some "trim.json") (1 / 1000) w _ _ toy_keeps eq_refl (or_introl (or_introl eq_refl)) K).
Qed.

(** *** C45 *)
Theorem C45_stall_onset :
  forall T (N : num_ops T) S (H : host T S) E f w a refs r w', keeps_numbers H -> h_refs H = Some refs ->
    w_aero w = Some a -> given a -> w_log w = [] -> stall_onset H E f w = (r, w') ->
    performed H (w_model w) (w_log w') (w_model w') /\
    match r with
    | Ok (Answer i) =>
        si_airspeed i = None /\ stall_scan (h_stalled H) (me_round2 E) (an a) (w_ctl w) (w_log w') i /\
        w_ctl w' = w_ctl w /\
        w_files w' = match named f with Some nm => dset (w_files w) nm [F_stall i] | None => w_files w end /\
        exists n a', List.length (w_log w') = Datatypes.S n /\ w_aero w' = Some a' /\ an a' = dset (an a) "alpha" (tenths n)
    | Ok (ErrorRecord _) => False
    | Err _ => w_files w' = w_files w
    end.
Proof. exact @onset_whole. Qed.
Print Assumptions C45_stall_onset.

(** What the stall check of the scan means for a MachUp object, after any history. *)
Theorem C45_stall_check :
  forall E (pl : airplane R) X ps h a c f a' s',
    exact_solver (me_lsolve E) -> built pl -> make_machup E pl = Ok X -> a_wings pl <> [] ->
    h_solve (host_of E X ps) a c (mu_after E X h) = (Ok f, a', s') ->
    exists g rows report, make_grid true pl = Ok g /\ ll_distributions g (m_ll s') = Ok rows /\
      h_stalled (host_of E X ps) s' = Ok report /\
      List.length rows = List.length (g_sections g) /\
      (report <> None <-> exists i s row, nth_error (g_sections g) i = Some s /\ nth_error rows i = Some row /\
                            tm (s_clmax s) < d_cl row) /\
      (forall name x, report = Some (name, x) ->
         exists i s row sg, nth_error (g_sections g) i = Some s /\ nth_error rows i = Some row /\
           tm (s_clmax s) < d_cl row /\
           (forall j s'0 row', (j < i)%nat -> nth_error (g_sections g) j = Some s'0 -> nth_error rows j = Some row' ->
              d_cl row' <= tm (s_clmax s'0)) /\
           In sg (wingsegments pl) /\ name = sg_name sg /\ x = from_root (sg_side sg) (s_sp s)).
Proof. exact stall_check. Qed.
Print Assumptions C45_stall_check.

(** Never stalling: no bound on the number of iterations is enough. *)
Theorem C45_does_not_return_without_stall :
  forall T (N : num_ops T) S (H : host T S) E, keeps_numbers H -> forall f w a refs, h_refs H = Some refs -> w_aero w = Some a -> given a ->
    (forall k a0 s, an a0 = dset (an a) "alpha" (tenths k) ->
       exists f a' s', h_solve H a0 (w_ctl w) s = (Ok f, a', s') /\ h_stalled H s' = Ok None) ->
    fst (stall_onset H E f w) = Err OutOfFuel.
Proof. exact @onset_never. Qed.
Print Assumptions C45_does_not_return_without_stall.

Theorem C45_without_wings :
  forall T (N : num_ops T) S (H : host T S) E f w, h_refs H = None ->
    stall_onset H E f w = match named f with
                          | Some nm => (Ok (ErrorRecord "unstallable"), put_file nm [F_error "unstallable"] w)
                          | None => (Err RuntimeError, w)
                          end.
Proof. exact @onset_no_wings. Qed.
Print Assumptions C45_without_wings.

Theorem C45_default_flow :
  forall T (N : num_ops T) S (H : host T S) E f w refs, h_refs H = Some refs -> omitted_aero (w_aero w) ->
    let v := stall_onset H E f (MkW (Some (MkAero [("V_mag", nint 10); ("rho", ndec 23769 7); ("alpha", n0)] None))
                                    (w_ctl w) (w_model w) (w_files w) (w_log w)) in
    stall_onset H E f w = (fst v, MkW (w_aero w) (w_ctl (snd v)) (w_model (snd v)) (w_files (snd v)) (w_log (snd v))).
Proof. exact @onset_default. Qed.
Print Assumptions C45_default_flow.

(** The toy stalls at 0.1 degrees; the caller's angle of attack, 1 before, is 0.1 afterwards. *)
Example C45_applies : exists w',
  stall_onset toy gauss_env None (MkW (Some toy_aero) None 0 [] []) =
    (Ok (Answer (MkStall "right_main" (1 / 2) (1 / 10) (10 + 3 / 10) None)), w') /\
  w_aero w' = Some (MkAero (dset (an toy_aero) "alpha" (1 / 10)) None).
Proof. exact toy_stall_onset. Qed.
(** The toy without stall. *)
Example C45_never_applies : fst (stall_onset toy_safe gauss_env None (MkW (Some toy_aero) None 0 [] [])) = Err OutOfFuel.
Proof.
  refine (onset_never toy_safe gauss_env toy_keeps None (MkW (Some toy_aero) None 0 [] []) toy_aero _ eq_refl eq_refl ltac:(left; discriminate) _).
  intros. eexists _, _, _. split; reflexivity.
Qed.
(** The flyer, solved by exact linear algebra. *)
Example C45_check_applies : exists f a' s',
  h_solve (host_of gauss_env flyer_machup None) (straight 10 1) None (mu_after gauss_env flyer_machup []) = (Ok f, a', s').
Proof.
  destruct (flyer_solves 10 1 None None [] ltac:(lra)) as (res & w' & K & _).
  destruct (solve_given gauss_env flyer_machup None None (MkW (Some (straight 10 1)) None (init_mstate flyer_machup) [] []) (straight 10 1) eq_refl ltac:(left; discriminate)) as (r & a' & s' & P & _ & _ & _ & Q & _).
  rewrite K in Q. cbn [fst] in Q. cbn [w_ctl w_model] in P. destruct r as [q|]; [|discriminate].
  exists (snd q), a', s'. cbn [host_of h_solve]. change (mu_after gauss_env flyer_machup []) with (init_mstate flyer_machup). rewrite P. reflexivity.
Qed.

(** *** C46 *)
Theorem C46_stall_airspeed :
  forall T (N : num_ops T) S (H : host T S) E weight f error w a refs r w', keeps_numbers H -> h_refs H = Some refs ->
    w_aero w = Some a -> given a -> w_log w = [] -> stall_airspeed H E weight f error w = (r, w') ->
    performed H (w_model w) (w_log w') (w_model w') /\ w_aero w' = w_aero w /\
    match r with
    | Ok (Answer i) => w_ctl w' = w_ctl w /\
        w_files w' = (match named f with Some nm => dset (w_files w) nm [F_stall i] | None => w_files w end) /\
        exists pre l0 l1 x0 x1 x2 i0 i1, w_log w' = (pre ++ l0 ++ l1)%list /\
          last_scans (stall_scan (h_stalled H) (me_round2 E)) weight error (an a) (w_ctl w) l0 l1 x0 x1 x2 i0 i1 i
    | Ok (ErrorRecord _) => False
    | Err _ => True
    end.
Proof. exact @airspeed_whole. Qed.
Print Assumptions C46_stall_airspeed.

Theorem C46_without_flow_raises :
  forall T (N : num_ops T) S (H : host T S) E weight f error w refs, h_refs H = Some refs -> omitted_aero (w_aero w) ->
    stall_airspeed H E weight f error w = (Err AttributeError, w).
Proof. exact @airspeed_always_raises. Qed.
Print Assumptions C46_without_flow_raises.

Theorem C46_without_wings :
  forall T (N : num_ops T) S (H : host T S) E weight f error w, h_refs H = None ->
    stall_airspeed H E weight f error w = match named f with
                          | Some nm => (Ok (ErrorRecord "unstallable"), put_file nm [F_error "unstallable"] w)
                          | None => (Err RuntimeError, w)
                          end.
Proof. exact @airspeed_no_wings. Qed.
Print Assumptions C46_without_wings.

Example C46_applies : exists w',
  stall_airspeed toy gauss_env 20 None (1 / 1000) (MkW (Some toy_aero) None 0 [] []) =
    (Ok (Answer (MkStall "right_main" (1 / 2) (1 / 10) 20 (Some (197 / 10)))), w').
Proof. exact toy_stall_airspeed. Qed.

(** *** C47 *)
Theorem C47_aero_center :
  forall S (H : host R S) E, keeps_numbers H -> forall f w v w' a,
    find_aero_center H E f w = (Ok v, w') -> w_aero w = Some a -> given a ->
    exists r ks a', h_refs H = Some r /\ List.length ks = 400%nat /\ performed H (w_model w) ks (w_model w') /\
      (forall j k, nth_error ks j = Some k -> exists f, solved_at k (dset (an a) "alpha" (-10 + INR j / 20)) (w_ctl w) f) /\
      w' = MkW (Some a') (w_ctl w) (w_model w')
             (match named f with Some nm => dset (w_files w) nm [F_numbers [("x_ac", vx v); ("z_ac", vz v)]] | None => w_files w end)
             (w_log w ++ ks) /\
      an a' = dset (an a) "alpha" (995 / 100) /\                           (* the finding *)
      forall pl : polar, exact_inv (me_inv E) -> p_slope pl <> 0 -> - PI / 2 < p_aL0 pl < PI / 2 ->
        (forall j k fm, nth_error ks j = Some k -> k_r k = Ok fm ->
           follows pl (dynamic_pressure (an a) * r_Sw r) (r_long r) (-10 + INR j / 20) fm) ->
        v = center_for pl (r_long r) (entry (an a) "alpha") (h_cg H).
Proof. exact @center_whole. Qed.
Print Assumptions C47_aero_center.

(** The regressions, for any number of samples [p]. *)
Theorem C47_lift_regression :
  forall A (p : list A) (s c : A -> R) k a0 z1 z2, In z1 p -> In z2 p -> s z1 * c z2 <> s z2 * c z1 ->
    k <> 0 -> - PI / 2 < a0 < PI / 2 ->
    lift_fit (map s p) (map c p) (map (fun z => k * (s z - tan a0 * c z)) p) = (a0, k).
Proof. exact @lift_fit_exact. Qed.
Print Assumptions C47_lift_regression.
Theorem C47_drag_regression :
  forall A (p : list A) E, exact_inv (me_inv E) -> forall (CL CD : A -> R) c0 c1 c2 r,
    (forall z, In z p -> CD z = c0 + c1 * CL z + c2 * CL z ^ 2) ->
    drag_fit E (map CL p) (map CD p) = Ok r -> r = (c0, c1, c2).
Proof. exact @drag_fit_exact. Qed.
Print Assumptions C47_drag_regression.
Theorem C47_moment_regression :
  forall A (p : list A) E, exact_inv (me_inv E) -> forall (s n c m : A -> R) c0 c1 c2 r,
    (forall z, In z p -> m z = c0 * s z + c1 * n z + c2 * c z) ->
    moment_fit E (map s p) (map n p) (map c p) (map m p) = Ok r -> r = (c0, c1, c2).
Proof. exact @moment_fit_exact. Qed.
Print Assumptions C47_moment_regression.

Theorem C47_default_flow :
  forall S (H : host R S) E f w, omitted_aero (w_aero w) ->
    let v := find_aero_center H E f (MkW (Some (MkAero [("V_mag", nint 10); ("rho", ndec 23769 7); ("alpha", n0)] None))
                                         (w_ctl w) (w_model w) (w_files w) (w_log w)) in
    find_aero_center H E f w = (fst v, MkW (w_aero w) (w_ctl (snd v)) (w_model (snd v)) (w_files (snd v)) (w_log (snd v))).
Proof. exact @center_default. Qed.
Print Assumptions C47_default_flow.

(** A glider whose forces follow such a polar at every angle: the regressions run, and the
    aerodynamic centre comes out as [center_for] says. *)
Example C47_applies : exists w',
  find_aero_center glider gauss_env None (MkW (Some glider_aero) None tt [] []) =
    (Ok (center_for glider_polar 1 2 (V3 (-1) 0 0)), w').
Proof.
  assert (P : forall ks s s', performed glider s ks s' -> forall k, In k ks -> k_r k = Ok (glider_forces (entry (an (k_a k)) "alpha"))).
  { induction ks as [|k0 ks IH]; intros s s' Hp k Hin; [destruct Hin|]. destruct Hp as [(b & Hp) Hr]. destruct Hin as [<-|Hin]; [|eauto].
    cbn [glider h_solve] in Hp. congruence. }
  set (w := MkW _ _ _ _ _ : world R unit). destruct (glider_runs None w eq_refl) as (v & w' & K).
  destruct (center_whole glider gauss_env glider_keeps None w v w' glider_aero K eq_refl ltac:(left; discriminate))
    as (r & ks & a' & R0 & _ & Hp & Q & _ & _ & C). injection R0 as <-.
  exists w'. rewrite K. f_equal. f_equal. refine (C glider_polar gauss_inv_exact _ _ _); cbn [glider_polar p_slope p_aL0].
  - lra.
  - pose proof PI_RGT_0. lra.
  - intros j k fm Hk Hf. destruct (Q j k Hk) as (f & S1 & S2 & S3).
    pose proof (P ks _ _ Hp k (nth_error_In _ _ Hk)) as E. rewrite Hf, S1, entry_set in E. injection E as ->.
    apply glider_follows.
Qed.
