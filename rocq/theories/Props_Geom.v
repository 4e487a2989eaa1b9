(** Properties C09-C12, C16, C56 of airplane construction.  Vocabulary: Spec_Geom.v
    (positions), Spec_File.v (files), Api.v ([api_call], [run_calls], [built]). *)
From Coq Require Import Reals ZArith String Bool Arith Lia Lra List.
From Verif Require Import Base Num RVec Geometry Api Grid Spec_Grid Spec_Geom Spec_File
     Grid_R Mirror Demo Geom_thm File_thm.
Import ListNotations.
Local Open Scope R_scope.

(** *** C09 *)
(** get_position of the root is where [sits] says; get_position of the tip is a
    root-to-tip vector away. *)
Theorem C09_wings_sit_on_their_parents :
  forall (pl : airplane R), built pl ->
  forall w s p, In w (a_store pl) -> In s (wing_segments w) ->
    (sits pl s p <-> exists f, seg_position f pl s (root_end (sg_side s)) = Ok p) /\
    (sits pl s p <-> exists f, seg_position f pl s (tip_end (sg_side s)) = Ok (vadd p (root_to_tip s))).
Proof. exact attached_root_tip. Qed.
Print Assumptions C09_wings_sit_on_their_parents.

(** Displacing wing [id] by [d] displaces what hangs on it by [d] and nothing else. *)
Theorem C09_displacing_a_parent :
  forall id d (pl pl' : airplane R),
    built pl -> not_self_attached pl -> moved id d pl pl' ->
    forall i w s at_ p f, nth_error (a_store pl) i = Some w -> In s (wing_segments w) ->
      seg_position f pl s at_ = Ok p ->
      (i <> id -> hangs_on pl id s -> seg_position f pl' s at_ = Ok (vadd p d)) /\
      (i <> id -> ~ hangs_on pl id s -> seg_position f pl' s at_ = Ok p) /\
      (i = id -> seg_position f pl' (move_segment d s) at_ = Ok (vadd p d)).
Proof. exact displacement. Qed.
Print Assumptions C09_displacing_a_parent.

(** Changing the position keyword of one add_wing call in a history is such a
    displacement. *)
Theorem C09_displacing_through_the_api :
  forall d dims dims' n ct sd cs1 cs2 name pos id pl1,
    shifted d dims dims' ->
    add_wing n ct sd dims (run_calls cs1 (new_airplane name pos)) = (Ok id, pl1) ->
    moved id d (run_calls (CAddWing n ct sd dims :: cs2) (run_calls cs1 (new_airplane name pos)))
               (run_calls (CAddWing n ct sd dims' :: cs2) (run_calls cs1 (new_airplane name pos))).
Proof. intros. eapply history_moved; eauto. Qed.
Print Assumptions C09_displacing_through_the_api.

(** In the demo airplane the winglets hang on the main wing, the tail does not. *)
Example C09_applies :
  built (demo (T := R)) /\ not_self_attached (demo (T := R)) /\
  (exists w s, nth_error (a_store (demo (T := R))) 1 = Some w /\ In s (wing_segments w) /\
     hangs_on demo 0 s /\ exists p, sits demo s p) /\
  (exists w s, nth_error (a_store (demo (T := R))) 2 = Some w /\ In s (wing_segments w) /\
     ~ hangs_on demo 0 s) /\
  shifted (V3 0 0 1) [("position"%string, VList [VNum 0; VNum 2; VNum 0])]
                     [("position"%string, VList [VNum 0; VNum 2; VNum 1])].
Proof.
  assert (Hns : not_self_attached (demo (T := R))).
  { apply calls_not_self_attached. repeat constructor; try discriminate. }
  split; [apply demo_built|]. split; [exact Hns|]. rewrite demo_eq.
  split; [|split].
  - eexists _, _. split; [reflexivity|]. split; [left; reflexivity|].
    split; [apply hangs_direct; reflexivity|].
    eexists. eapply sits_wing; try reflexivity. apply sits_airplane. reflexivity.
  - eexists _, _. split; [reflexivity|]. split; [left; reflexivity|].
    intros H. inversion H as [s0 E|s0 i w q E Ew Eq H0]; subst; discriminate.
  - split.
    + intros k Hk. simpl. destruct (String.eqb_spec k "position"); [contradiction|reflexivity].
    + exists 0, 2, 0, 0, 2, 1. repeat split. vunf; rnum. f_equal; lra.
Qed.

(** *** C10 *)
Theorem C10_position_queries_terminate :
  forall (T : Type) (N : num_ops T) (pl : airplane T), built pl -> not_self_attached pl ->
  forall w s at_, In w (a_store pl) -> (w_left w = Some s \/ w_right w = Some s) ->
  forall f, (List.length (a_store pl) <= f)%nat ->
    seg_position f pl s at_ <> Err OutOfFuel /\
    seg_position f pl s at_ = seg_position (List.length (a_store pl)) pl s at_.
Proof. exact @position_answered. Qed.
Print Assumptions C10_position_queries_terminate.

Theorem C10_histories_without_self_attachment :
  forall (T : Type) (N : num_ops T) (cs : list (api_call T)) name pos,
    (forall n p at_ sd dims, In (CAddWing n (Some p, at_) sd dims) cs -> p <> n \/ p = ""%string) ->
    not_self_attached (run_calls cs (new_airplane name pos)).
Proof.
  intros T N cs name pos H. apply calls_not_self_attached. apply Forall_forall.
  intros c Hc. destruct c as [n [[p|] at_] s d| | | | | |]; simpl; auto. eapply H; eauto.
Qed.
Print Assumptions C10_histories_without_self_attachment.

Theorem C10_self_attached_wing_never_answers :
  forall (T : Type) (N : num_ops T) n sd dims (pl : airplane T) id pl',
    n <> ""%string -> add_wing n (Some n, "tip"%string) sd dims pl = (Ok id, pl') ->
    exists w, nth_error (a_store pl') id = Some w /\
    forall s at_, (at_ = "left_tip" \/ at_ = "right_tip")%string ->
                  (w_left w = Some s \/ w_right w = Some s) ->
                  forall f, seg_position f pl' s at_ = Err OutOfFuel.
Proof. exact @self_attached_diverges. Qed.
Print Assumptions C10_self_attached_wing_never_answers.

Example C10_applies :
  not_self_attached (demo (T := R)) /\
  exists id pl', add_wing "w" (Some "w"%string, "tip"%string) "both" [] (new_airplane (T := R) "p" None) = (Ok id, pl') /\
                 exists w s, nth_error (a_store pl') id = Some w /\ w_left w = Some s.
Proof.
  split.
  - apply calls_not_self_attached. repeat constructor; try discriminate.
  - eexists _, _. split; [reflexivity|]. eexists _, _. split; reflexivity.
Qed.

(** *** C11 *)
(** [r] is what add_wing returned or raised, [pl'] the airplane afterwards. *)
Theorem C11_add_wing_outcomes :
  forall (T : Type) (N : num_ops T) n ct sd dims (pl : airplane T),
    let (r, pl') := add_wing n ct sd dims pl in
    (forall id, r = Ok id -> exists w, nth_error (a_store pl') id = Some w /\ dget (a_wings pl') n = Some id) /\
    (forall e, r = Err e ->
       (pl' = pl /\ make_wing n sd dims = Err e) \/
       (e = KeyError /\ exists pn w, fst ct = Some pn /\ pn <> ""%string /\ pn <> n /\
          dget (a_wings pl) pn = None /\ make_wing n sd dims = Ok w /\
          a_store pl' = a_store pl ++ [w] /\
          dget (a_wings pl') n = Some (List.length (a_store pl)) /\
          (forall k, k <> n -> dget (a_wings pl') k = dget (a_wings pl) k) /\
          forall s, w_left w = Some s \/ w_right w = Some s -> sg_parent s = PNone)).
Proof. exact @add_wing_outcomes. Qed.
Print Assumptions C11_add_wing_outcomes.

(** "failed calls change nothing" is false: a failing add_wing adds a wing *)
Theorem C11_atomicity_refuted :
  exists (pl : airplane R) n ct sd dims e pl',
    built pl /\ add_wing n ct sd dims pl = (Err e, pl') /\
    wingsegments pl = [] /\ List.length (wingsegments pl') = 2%nat.
Proof.
  exists (new_airplane "p" None), "w"%string, (Some "nobody"%string, "tip"%string), "both"%string, [].
  eexists _, _. split; [constructor|]. split; [reflexivity|]. split; reflexivity.
Qed.
Print Assumptions C11_atomicity_refuted.

Example C11_applies :
  fst (add_wing "w" (Some "nobody"%string, "tip"%string) "both" [] (demo (T := R))) = Err KeyError /\
  fst (add_wing "w" (None, "tip"%string) "middle" [] (demo (T := R))) = Err RuntimeError.
Proof. rewrite demo_eq. split; reflexivity. Qed.

(** *** C12 *)
(** After any history of calls each CG coordinate is the last non-zero value given
    for it by a cg_location call, or the value it had before. *)
Theorem C12_cg_after_history :
  forall (cs : list (api_call R)) (pl : airplane R),
    a_cg (run_calls cs pl) =
    V3 (last_nonzero (vx (a_cg pl)) (given (fun x _ _ => x) cs))
       (last_nonzero (vy (a_cg pl)) (given (fun _ y _ => y) cs))
       (last_nonzero (vz (a_cg pl)) (given (fun _ _ z => z) cs)).
Proof. exact cg_history. Qed.
Print Assumptions C12_cg_after_history.

Theorem C12_cg_never_returns_to_zero :
  forall (cs : list (api_call R)) (pl : airplane R),
    (vx (a_cg pl) <> 0 -> vx (a_cg (run_calls cs pl)) <> 0) /\
    (vy (a_cg pl) <> 0 -> vy (a_cg (run_calls cs pl)) <> 0) /\
    (vz (a_cg pl) <> 0 -> vz (a_cg (run_calls cs pl)) <> 0).
Proof. intros cs pl. rewrite cg_history. repeat split; apply last_nonzero_sticks. Qed.
Print Assumptions C12_cg_never_returns_to_zero.

Example C12_applies :
  a_cg (run_calls [CCg (Some 1) None (Some 2); CCg (Some 0) (Some 3) (Some 0); CRef None (Some 1)]
                  (new_airplane (T := R) "p" None)) = V3 1 3 2.
Proof.
  rewrite cg_history. simpl.
  repeat match goal with |- context[Req_EM_T ?a ?b] => destruct (Req_EM_T a b); try lra end. reflexivity.
Qed.

(** *** C16 *)
Theorem C16_file_loads_iff_well_formed :
  forall (T : Type) (N : num_ops T) (data : pyval T) name pos, distinct_wing_names data ->
    ((exists pl, build_from_file data (new_airplane name pos) = (Ok tt, pl)) <-> good_file data).
Proof.
  intros T N data name pos Hd. split.
  - intros [pl H]. eapply build_file_ok; eauto.
  - intros H. now apply build_file_succeeds.
Qed.
Print Assumptions C16_file_loads_iff_well_formed.

Theorem C16_file_equals_api_calls :
  forall (T : Type) (N : num_ops T) (data : pyval T) name pos pl, distinct_wing_names data ->
    build_from_file data (new_airplane name pos) = (Ok tt, pl) ->
    pl = set_units (file_units data) (set_name (str_of (at_ (at_ data "plane") "name"))
           (run_calls (file_calls data) (new_airplane name pos))).
Proof. intros T N data name pos pl Hd H. eapply build_file_ok; eauto. Qed.
Print Assumptions C16_file_equals_api_calls.

(** zero CG coordinates in a file give the origin (C12) *)
Theorem C12_zero_cg_in_file :
  forall (data : pyval R) name pos pl, distinct_wing_names data ->
    build_from_file data (new_airplane name pos) = (Ok tt, pl) ->
    (forall k, In k ["CGx"; "CGy"; "CGz"]%string -> num_of (at_ (at_ data "plane") k) = Some 0) ->
    a_cg pl = vzero.
Proof.
  intros data name pos pl Hd H Hz.
  rewrite (C16_file_equals_api_calls _ _ _ _ _ _ Hd H).
  change (a_cg (run_calls (file_calls data) (new_airplane name pos)) = vzero).
  assert (Hw : forall (f : option R -> option R -> option R -> option R) ws b, given f (wings_calls b ws) = []).
  { intros f ws. induction ws as [|[n v] ws IH]; intros b; auto. cbn [wings_calls]. unfold given in *.
    rewrite !flat_map_app, IH. unfold wing_calls, airfoil_calls, control_calls.
    destruct (entries (at_ v "airfoils")) as [|[n1 a] [|[n2 a2] l]]; destruct (ptruthy (at_ v "control")); reflexivity. }
  assert (Hp : forall (f : option R -> option R -> option R -> option R) ps,
             given f (flat_map (fun e => prop_calls (fst e) (snd e)) ps) = []).
  { intros f ps. induction ps as [|[n v] ps IH]; auto. unfold given in *.
    change (flat_map (fun e => prop_calls (fst e) (snd e)) ((n, v) :: ps))
      with (prop_calls n v ++ flat_map (fun e => prop_calls (fst e) (snd e)) ps)%list.
    rewrite flat_map_app, IH. unfold prop_calls. cbn [fst snd].
    destruct (entries (at_ v "airfoils")) as [|[n1 a] [|[n2 a2] l]]; reflexivity. }
  rewrite cg_history. unfold file_calls. cbv zeta.
  rewrite !Hz by (simpl; tauto).
  unfold given in *. rewrite !flat_map_app, !Hw, !Hp. simpl.
  destruct (Req_EM_T 0 0); [reflexivity|contradiction].
Qed.
Print Assumptions C12_zero_cg_in_file.

(** A file with a main wing (two airfoils, a control surface), a winglet on its tip
    and a propeller; and one that is rejected because a wing is listed before its
    parent. *)
Definition file_airfoil {T} : pyval T :=
  VDict [("properties"%string, VDict (map (fun k => (k, VInt 1))
    ["alpha_L0"; "CL_alpha"; "Cm_L0"; "Cm_alpha"; "CD0"; "CD0_L"; "CD0_L2"; "CL_max"]%string))].
Definition file_wing {T} (id parent : Z) (ctl : pyval T) : pyval T := VDict
  [("ID", VInt id); ("side", VStr "both"); ("is_main", VInt 1);
   ("connect", VDict [("ID", VInt parent); ("location", VStr "tip"); ("dx", VInt 0); ("dy", VInt 0);
                      ("dz", VInt 0); ("yoffset", VInt 0)]);
   ("span", VInt 4); ("sweep", VInt 0); ("dihedral", VInt 0); ("mounting_angle", VInt 2);
   ("washout", VInt 0); ("root_chord", VInt 1); ("tip_chord", VInt 1); ("grid", VInt 5);
   ("airfoils", VDict [("a", file_airfoil); ("b", file_airfoil)]); ("control", ctl)]%string.
Definition file_prop {T} : pyval T := VDict
  [("position", VDict [("dx", VInt 1); ("dy", VInt 0); ("dz", VInt 0)]);
   ("orientation", VDict [("elevation_angle", VInt 0); ("heading_angle", VInt 0)]);
   ("radial_nodes", VInt 10); ("diameter", VInt 1); ("hub_diameter", VInt 0); ("num_of_blades", VInt 2);
   ("rotation_direction", VStr "CCW"); ("pitch", VDict []); ("chord", VDict []);
   ("airfoils", VDict [("a", file_airfoil)])]%string.
Definition demo_file {T} (wings : list (string * pyval T)) : pyval T := VDict
  [("plane", VDict [("name", VStr "p"); ("CGx", VInt 0); ("CGy", VInt 0); ("CGz", VInt 0)]);
   ("reference", VDict [("longitudinal_length", VNone); ("lateral_length", VInt 8)]);
   ("condition", VDict [("units", VStr "SI")]);
   ("wings", VDict wings); ("propellers", VDict [("prop", file_prop)])]%string.
Definition file_control {T} : pyval T := VDict
  [("span_root", VInt 0); ("span_tip", VInt 1); ("chord_root", VInt 0); ("chord_tip", VInt 0);
   ("mix", VDict [("elevator", VInt 1)]); ("is_sealed", VInt 0)]%string.

Lemma demo_file_loads T (N : num_ops T) :
  exists pl, build_from_file (T := T)
    (demo_file [("main", file_wing 1 0 file_control); ("winglet", file_wing 2 1 VNone)]%string)
    (new_airplane "" None) = (Ok tt, pl).
Proof. eexists. vm_compute. reflexivity. Qed.

Example C16_applies :
  let good := demo_file (T := R) [("main", file_wing 1 0 file_control); ("winglet", file_wing 2 1 VNone)]%string in
  let bad := demo_file (T := R) [("winglet", file_wing 2 1 VNone); ("main", file_wing 1 0 file_control)]%string in
  distinct_wing_names good /\ good_file good /\ distinct_wing_names bad /\ ~ good_file bad.
Proof.
  cbv zeta.
  match goal with |- ?A /\ _ => assert (D1 : A) by (repeat constructor; simpl; intuition discriminate) end.
  split; [exact D1|]. split.
  - apply (C16_file_loads_iff_well_formed R Rnum _ ""%string None D1). apply demo_file_loads.
  - match goal with |- ?A /\ _ => assert (D2 : A) by (repeat constructor; simpl; intuition discriminate) end.
    split; [exact D2|]. intros [_ [_ [_ [Hw _]]]].
    destruct (Hw _ eq_refl) as [ws [E Hg]]. inversion E; subst ws.
    destruct (Hg [] "winglet"%string (file_wing 2 1 VNone) _ eq_refl) as [_ [_ [c [Hc [x [Hx Hp]]]]]].
    simpl in Hc. inversion Hc; subst c. simpl in Hx. inversion Hx; subst x.
    destruct Hp as [Hp|[_ [Hp _]]]; [discriminate|]. apply Hp. reflexivity.
Qed.

(** *** C56 *)
Theorem C56_rotation_direction :
  forall v : pyval R,
    (rot_dir v = -1 <-> v = VStr "CW" \/ v = VStr "cw" \/ v = VInt (-1) \/ v = VNum (-1)) /\
    (rot_dir v = 1 \/ rot_dir v = -1).
Proof. exact rot_dir_cases. Qed.
Print Assumptions C56_rotation_direction.

(** the documented clockwise code 0 gives counter-clockwise *)
Theorem C56_documented_code_refuted : rot_dir (VInt 0 : pyval R) = 1 /\ rot_dir (VNum 0 : pyval R) = 1.
Proof.
  split; [reflexivity|].
  destruct (rot_dir_cases (VNum 0)) as [H [H1|H1]]; auto.
  apply H in H1. repeat (destruct H1 as [H1|H1]; try discriminate). inversion H1. lra.
Qed.
Print Assumptions C56_documented_code_refuted.
