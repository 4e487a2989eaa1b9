(** Changing the system of units (C72): [l], [k], [m] convert lengths, velocities and
    densities. *)
From Coq Require Import Reals String Bool List.
From Verif Require Import Base Num RVec Geometry LLModel PropModel MU.
Import ListNotations.
Local Open Scope string_scope.
Local Open Scope R_scope.

(** *** The same airplane with its lengths in other units: wings, propellers, centre of gravity,
    reference lengths and position; angles, airfoils, control surfaces (fractions of span and
    chord), names and attachment are the same. *)
Definition segment_in (l : R) (s : segment R) : segment R :=
  MkSegment (sg_name s) (sg_side s) (sg_parent s) (sg_connect_at s) (vscale l (sg_delta s)) (sg_is_main s)
            (l * sg_yoffset s) (l * sg_span s) (l * sg_root_chord s) (l * sg_tip_chord s)
            (sg_sweep s) (sg_dihedral s) (sg_mount s) (sg_washout s) (sg_root_af s) (sg_tip_af s) (sg_control s) (sg_num s).
Definition wing_in (l : R) (w : wing R) : wing R :=
  MkWing (w_name w) (w_side w) (option_map (segment_in l) (w_left w)) (option_map (segment_in l) (w_right w)).
(** a length in an input dictionary; [lengths]: under which keys there is one *)
Definition length_in (l : R) (v : pyval R) : pyval R := match pnum v with Ok x => VNum (l * x) | Err _ => v end.
Definition lengths_in (l : R) (lengths : list string) (d : dict (pyval R)) : dict (pyval R) :=
  map (fun e => (fst e, if existsb (String.eqb (fst e)) lengths then length_in l (snd e) else snd e)) d.
(** propellers: position, diameter and hub diameter, the chord at root and tip, and the pitch
    when it is a length (type "value"); tables and pitch ratios are relative to the diameter *)
Definition pitch_lengths (d : dict (pyval R)) : list string :=
  match dget d "type" with Some ty => if peq_str ty "value" then ["value"] else [] | None => [] end.
Definition prop_in (l : R) (p : prop R) : prop R :=
  MkProp (pr_name p) (vscale l (pr_position p)) (pr_elevation p) (pr_heading p) (pr_nodes p) (l * pr_diameter p) (l * pr_hub p)
         (pr_blades p) (pr_rot_dir p) (lengths_in l (pitch_lengths (pr_pitch p)) (pr_pitch p))
         (lengths_in l ["root"; "tip"] (pr_chord p)) (pr_motor p) (pr_airfoils p).
(** [u]: the name of the system of units; it only matters to electric motors *)
Definition plane_in (l : R) (u : option string) (pl : airplane R) : airplane R :=
  MkAirplane (a_name pl) (a_wings pl) (map (wing_in l) (a_store pl)) (map (fun e => (fst e, prop_in l (snd e))) (a_props pl))
             (vscale l (a_cg pl)) (option_map (Rmult l) (a_long_ref pl)) (option_map (Rmult l) (a_lat_ref pl))
             (option_map (vscale l) (a_position pl)) (option_map (fun _ => u) (a_units pl)).

(** *** The same state: [d'] is [d] with density times [m], airspeed times [k] and rotation
    rates (per unit of time) times [k / l]; the angles stay *)
Definition entry_in (m k l : R) (key : string) (x : R) : R :=
  if (key =? "rho")%string then m * x
  else if (key =? "V_mag")%string then k * x
  else if ((key =? "roll_rate") || (key =? "pitch_rate") || (key =? "yaw_rate"))%string then k / l * x
  else x.
Definition state_in (m k l : R) (d d' : aero_state R) : Prop :=
  (forall key, dget (an d') key = option_map (entry_in m k l key) (dget (an d) key)) /\
  als d' = option_map (map (fun row => (m * fst row, vscale k (snd row)))) (als d).

(** *** The same state of the propellers: advance ratios stay, rotation rates are times [k / l];
    the dictionary of each propeller may be in the dictionary under its name *)
Definition rate_in (k l : R) (e : string * pval R) : string * pval R :=
  (fst e, match snd e with
          | PNum x => PNum (if (fst e =? "rot_per_sec")%string then k / l * x else x)
          | PDict d => PDict d
          end).
Definition prop_state_in (k l : R) (d : dict (pval R)) : dict (pval R) :=
  map (fun e => match snd e with PDict d => (fst e, PDict (map (rate_in k l) d)) | _ => rate_in k l e end) d.
(** No rotation rate is sought for a given power or throttle setting.  (That iteration stops
    when the rate changes by less than 1e-14, in any units.) *)
Definition speed_given (d : dict (pval R)) : Prop :=
  dget d "brake_power" = None /\ dget d "electric_throttle" = None.
Definition speeds_given (p : option (dict (pval R))) : Prop :=
  match p with
  | None => True
  | Some d => speed_given d /\ forall name d', dget d name = Some (PDict d') -> speed_given d'
  end.

(** *** The same forces and moments *)
Definition fm_in (m k l : R) (f : fm R) : fm R :=
  let q := m * k ^ 2 * l ^ 2 in
  MkFM (q * FL f) (q * FD f) (q * FS f) (q * FX f) (q * FY f) (q * FZ f)
       (q * l * MX f) (q * l * MY f) (q * l * MZ f).
Definition stall_in (m k l : R) (i : stall_info R) : stall_info R :=
  MkStall (si_wing i) (si_span i) (si_alpha i) (m * k ^ 2 * l ^ 2 * si_lift i) (option_map (Rmult k) (si_airspeed i)).
(** *** The same line of the table of distributions: place, chord, area and force change; angles
    and coefficients do not *)
Definition wing_row_in (m k l : R) (r : wing_row R) : wing_row R :=
  let d := wr_row r in
  MkWRow (MkDist (d_name d) (vscale l (d_cp d)) (l * d_chord d) (d_twist d) (d_dihedral d) (d_sweep d) (l ^ 2 * d_area d)
                 (d_alpha d) (vscale (m * k ^ 2 * l ^ 2) (d_force d)) (d_cl d) (d_cm d) (d_cd d) (d_al0 d)) (wr_cl_ref r).

Definition blade_row_in (k l : R) (r : @blade_row R) : @blade_row R :=
  MkBlade (b_name r) (l * b_r r) (l * b_chord r) (b_pitch r) (b_advance r) (b_induced r) (b_alpha r)
          (b_cl r) (b_cd r) (k * b_Vi r) (k * b_Vx r) (k * b_Vt r).

(** *** A session with a MachUp object: a list of requests, each with its own dictionaries
    aero_state, control_state and prop_state *)
Definition inputs : Type := (aero_state R * option (dict R) * option (dict (pval R)))%type.
Inductive request : Type :=
| Ask_solve (i : inputs)
| Ask_stability (i : inputs)
| Ask_control (i : inputs)
| Ask_damping (i : inputs)
| Ask_derivatives (i : inputs)
| Ask_target_lift (lift error : R) (i : inputs)
| Ask_stall_onset (i : inputs)
| Ask_aero_center (i : inputs)
| Ask_distributions (i : inputs).
Inductive reply : Type :=
| Got_forces (f : fm R)
| Got_numbers (d : dict R)
| Got_derivatives (d : answer (derivs R))
| Got_alpha (x : answer R)
| Got_stall (i : answer (stall_info R))
| Got_center (v : vec3 R)
| Got_table (rows : list (wing_row R) * list (@blade_row R)).
Definition ask {A} (f : A -> reply) (p : st (world R (mstate R)) A) (i : inputs) (s : mstate R)
  : res reply * mstate R :=
  match p (MkW (Some (fst (fst i))) (snd (fst i)) s [] []) with
  | (Ok x, w) => (Ok (f x), w_model w)
  | (Err e, w) => (Err e, w_model w)
  end.
Definition serve (E : menv R) (X : machup R) (r : request) : mstate R -> res reply * mstate R :=
  let H (i : inputs) := host_of E X (snd i) in
  match r with
  | Ask_solve i => ask Got_forces (mu_solve E X (snd i) None) i
  | Ask_stability i => ask Got_numbers (stability_derivatives (H i)) i
  | Ask_control i => ask Got_numbers (control_derivatives (H i)) i
  | Ask_damping i => ask Got_numbers (damping_derivatives (H i)) i
  | Ask_derivatives i => ask Got_derivatives (derivatives (H i) None) i
  | Ask_target_lift t e i => ask Got_alpha (target_lift (H i) t None e) i
  | Ask_stall_onset i => ask Got_stall (stall_onset (H i) E None) i
  | Ask_aero_center i => ask Got_center (find_aero_center (H i) E None) i
  | Ask_distributions i => ask Got_table (distributions E X (snd i) 0 None) i
  end.
(** the replies (or exceptions), in order *)
Fixpoint session (E : menv R) (X : machup R) (s : mstate R) (rs : list request) : list (res reply) :=
  match rs with
  | [] => []
  | r :: rs => let (x, s') := serve E X r s in x :: session E X s' rs
  end.

(** *** The same requests and replies.  [complete]: airspeed and density are in the dictionary
    (otherwise the code assumes 10 and 0.0023769, in any units). *)
Definition complete (a : aero_state R) : Prop := dget (an a) "V_mag" <> None /\ dget (an a) "rho" <> None.
Definition inputs_in (m k l : R) (i i' : inputs) : Prop :=
  let '(a, c, p) := i in let '(a', c', p') := i' in
  complete a /\ state_in m k l a a' /\ c' = c /\ speeds_given p /\ p' = option_map (prop_state_in k l) p.
Inductive request_in (m k l : R) : request -> request -> Prop :=
| RI_solve i i' : inputs_in m k l i i' -> request_in m k l (Ask_solve i) (Ask_solve i')
| RI_stability i i' : inputs_in m k l i i' -> request_in m k l (Ask_stability i) (Ask_stability i')
| RI_control i i' : inputs_in m k l i i' -> request_in m k l (Ask_control i) (Ask_control i')
| RI_damping i i' : inputs_in m k l i i' -> request_in m k l (Ask_damping i) (Ask_damping i')
| RI_derivatives i i' : inputs_in m k l i i' -> request_in m k l (Ask_derivatives i) (Ask_derivatives i')
| RI_target t e i i' : inputs_in m k l i i' ->
    request_in m k l (Ask_target_lift t e i) (Ask_target_lift (m * k ^ 2 * l ^ 2 * t) e i')
| RI_stall i i' : inputs_in m k l i i' -> request_in m k l (Ask_stall_onset i) (Ask_stall_onset i')
| RI_center i i' : inputs_in m k l i i' -> request_in m k l (Ask_aero_center i) (Ask_aero_center i')
| RI_table i i' : inputs_in m k l i i' -> request_in m k l (Ask_distributions i) (Ask_distributions i').
(** forces, moments, the lift at stall, positions and section forces change; coefficients,
    derivatives and angles do not *)
Definition reply_in (m k l : R) (x : reply) : reply :=
  match x with
  | Got_forces f => Got_forces (fm_in m k l f)
  | Got_stall (Answer i) => Got_stall (Answer (stall_in m k l i))
  | Got_center v => Got_center (vscale l v)
  | Got_table (rows, b) => Got_table (map (wing_row_in m k l) rows, map (blade_row_in k l) b)
  | same => same
  end.
Definition same_outcome (m k l : R) (x : res reply) : res reply :=
  match x with Ok y => Ok (reply_in m k l y) | Err e => Err e end.
