(** Specification vocabulary for editing an airplane that is already in use (C84). *)
From Coq Require Import Reals String List.
From Verif Require Import Base Num Geometry Api Grid LLModel PropModel MU Spec_Units Live.
Import ListNotations.
Set Implicit Arguments.
Local Open Scope R_scope.

(** what the user does: edits the airplane, or asks the MachUp object made from it *)
Inductive event : Type := Edit (c : api_call R) | Ask (r : request).

(** a request answered by the object [X] while the airplane is [pl] *)
Definition serve_live (E : menv R) (X : machup R) (pl : airplane R) (r : request) : mstate R -> res reply * mstate R :=
  let H (i : inputs) := live_host E X pl (snd i) in
  match r with
  | Ask_solve i => ask Got_forces (live_solve E X pl (snd i) None) i
  | Ask_stability i => ask Got_numbers (stability_derivatives (H i)) i
  | Ask_control i => ask Got_numbers (control_derivatives (H i)) i
  | Ask_damping i => ask Got_numbers (damping_derivatives (H i)) i
  | Ask_derivatives i => ask Got_derivatives (derivatives (H i) None) i
  | Ask_target_lift t e i => ask Got_alpha (target_lift (H i) t None e) i
  | Ask_stall_onset i => ask Got_stall (stall_onset (H i) E None) i
  | Ask_aero_center i => ask Got_center (find_aero_center (H i) E None) i
  | Ask_distributions i => ask Got_table (live_distributions E X pl (snd i)) i
  end.
(** the replies (or exceptions) to the requests, in order *)
Fixpoint live_session (E : menv R) (X : machup R) (pl : airplane R) (s : mstate R) (evs : list event) : list (res reply) :=
  match evs with
  | [] => []
  | Edit c :: evs => live_session E X (run_call c pl) s evs
  | Ask r :: evs => let (x, s') := serve_live E X pl r s in x :: live_session E X pl s' evs
  end.

(** The session an object would give whose airplane is never touched but for its centre of
    gravity: [cg_location] changes the coordinates given and not zero (C12). *)
Definition coordinate (old : R) (new : option R) : R :=
  match new with Some x => if Req_EM_T x 0 then old else x | None => old end.
Fixpoint cg_session (E : menv R) (X : machup R) (cg : vec3 R) (s : mstate R) (evs : list event) : list (res reply) :=
  match evs with
  | [] => []
  | Edit (CCg x y z) :: evs =>
      cg_session E X (V3 (coordinate (vx cg) x) (coordinate (vy cg) y) (coordinate (vz cg) z)) s evs
  | Edit _ :: evs => cg_session E X cg s evs
  | Ask r :: evs => let (x, s') := serve E (with_cg cg X) r s in x :: cg_session E X cg s' evs
  end.
(** the edits do not add the first wing, or the first propeller *)
Definition adds_wing (e : event) : Prop := match e with Edit (CAddWing _ _ _ _) => True | _ => False end.
Definition adds_prop (e : event) : Prop := match e with Edit (CAddProp _ _) => True | _ => False end.
Definition no_new_kind (pl : airplane R) (evs : list event) : Prop :=
  (a_wings pl <> [] \/ Forall (fun e => ~ adds_wing e) evs) /\
  (a_props pl <> [] \/ Forall (fun e => ~ adds_prop e) evs).

(** requests, and edits by cg_location *)
Definition kept (e : event) : bool :=
  match e with Ask _ => true | Edit (CCg _ _ _) => true | Edit _ => false end.
Definition is_cg (c : api_call R) : Prop := match c with CCg _ _ _ => True | _ => False end.
