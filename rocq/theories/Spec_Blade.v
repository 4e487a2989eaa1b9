(** Vocabulary for the blade-element properties (C66-C68): rows of the distributions,
    velocities at a blade section, loads per unit radius, motor and battery.  Independent
    of the functions that model propmodel.py. *)
From Coq Require Import Reals String List.
From Verif Require Import Base Num Geometry Grid LLModel PropModel Spec_Grid Spec_LL Spec_Prop.
Import ListNotations.
Local Open Scope string_scope.
Local Open Scope R_scope.

(** *** One row of the blade distributions (angles in degrees) *)

(** Angle of the air towards the blade section, measured from the disk: advance angle
    plus induced angle. *)
Definition inflow (b : blade_row (T := R)) : R := degrees (b_advance b) + degrees (b_induced b).
(** Speed of the air towards the blade section at [n] revolutions per second. *)
Definition wind (n : R) (b : blade_row (T := R)) : R :=
  2 * PI * n * b_r b * cos (degrees (b_induced b)) / cos (degrees (b_advance b)).
(** Lift and drag per unit radius of [k] blades. *)
Definition lift_of (rho n : R) (k : nat) (b : blade_row (T := R)) : R :=
  INR k * (1 / 2 * rho * wind n b ^ 2 * b_chord b * b_cl b).
Definition drag_of (rho n : R) (k : nat) (b : blade_row (T := R)) : R :=
  INR k * (1 / 2 * rho * wind n b ^ 2 * b_chord b * b_cd b).
(** Their components along the axis and against the rotation (times the radius). *)
Definition thrust_of (rho n : R) (k : nat) (b : blade_row (T := R)) : R :=
  lift_of rho n k b * cos (inflow b) - drag_of rho n k b * sin (inflow b).
Definition torque_of (rho n : R) (k : nat) (b : blade_row (T := R)) : R :=
  b_r b * (lift_of rho n k b * sin (inflow b) + drag_of rho n k b * cos (inflow b)).

(** *** Quadrature *)

(** What is assumed of scipy's [simps(y, x)]: it is homogeneous in the values and in the
    unit of length. *)
Definition quadrature (simps : list R -> list R -> R) : Prop :=
  forall c h ys xs, 0 < h -> List.length ys = List.length xs ->
    simps (map (Rmult c) ys) (map (Rmult h) xs) = c * (h * simps ys xs).
(** The trapezoidal rule, as an example of one. *)
Fixpoint trapezoid (ys xs : list R) : R :=
  match ys, xs with
  | y0 :: ((y1 :: _) as ys'), x0 :: ((x1 :: _) as xs') => (y0 + y1) / 2 * (x1 - x0) + trapezoid ys' xs'
  | _, _ => 0
  end.

(** *** Velocities at a blade section *)

(** At [n] revolutions per second in a stream of speed [V] along the axis, the air meets
    the section of row [b] with the axial component [V] plus the induced one and the
    tangential component due to rotation minus the induced one; [wind] and [inflow] are
    size and direction of the sum, and the induced velocity is perpendicular to it. *)
Definition velocity_triangle (n V : R) (b : blade_row (T := R)) : Prop :=
  let w := wind n b in
  V + b_Vx b = w * sin (inflow b) /\
  2 * PI * n * b_r b - b_Vt b = w * cos (inflow b) /\
  b_Vi b ^ 2 = b_Vx b ^ 2 + b_Vt b ^ 2 /\
  (V + b_Vx b) * b_Vx b = (2 * PI * n * b_r b - b_Vt b) * b_Vt b.

(** The rotation is set by "J" or "rot_per_sec" (or by default). *)
Definition rate_given (v : option (pval R)) : Prop :=
  match v with
  | Some (PDict (e :: l)) => dget (e :: l) "J" <> None \/ dget (e :: l) "rot_per_sec" <> None
  | _ => True
  end.

(** *** Rotation rate from power or throttle *)

(** Torque and power the blades absorb at rate [m], from the rows of the distributions
    left in state [s] and the quadrature of [E]. *)
Definition shaft_torque (E : penv R) (g : pgeom R) (rho m : R) (s : pstate R) : R :=
  let rows := prop_rows g s in
  pe_simps E (map (torque_of rho m (pg_k g)) rows) (map (fun b => b_r b) rows).
Definition shaft_power (E : penv R) (g : pgeom R) (rho m : R) (s : pstate R) : R :=
  2 * PI * m * shaft_torque E g rho m s.
(** The results of a blade-element solve: angles, section coefficients, coefficients of
    the whole propeller. *)
Definition blades {T : Type} (s : pstate T) :=
  (p_ei s, p_einf s, p_alpha s, p_CL s, p_CD s, (p_CT s, p_Cl s, p_CNa s, p_Cna s, p_CP s, p_eff s)).
(** [s] carries the results of a blade-element solve at the rate [m] in a stream of speed
    [V]. *)
Definition trial (E : penv R) (g : pgeom R) (V m : R) (s : pstate R) : Prop :=
  exists sa sb, find_coefficients E g sa = (Ok tt, sb) /\
    List.length (p_ei sa) = List.length (pg_stations g) /\
    p_n sa = m /\ p_Vinf sa = V /\ p_J sa = V / (m * pg_d g) /\ blades s = blades sb.
(** The straight line through (x0, y0) and (x1, y1), which are at different heights,
    meets zero at [x]. *)
Definition line_root (x0 y0 x1 y1 x : R) : Prop := y1 * (x1 - x0) = (x1 - x) * (y1 - y0).

(** The electrical data of the propeller file are those of [mo]. *)
Definition motor_data (p : prop R) (mo : motor R) : Prop :=
  let given key x := exists v, dget (pr_motor p) key = Some v /\ number v x in
  (dget (pr_motor p) "has_motor" = Some (VBool true) \/ dget (pr_motor p) "has_motor" = Some (VInt 1)) /\
  given "motor_kv" (mo_kv mo) /\ given "motor_resistance" (mo_rm mo) /\
  given "motor_no_load_current" (mo_io mo) /\ given "gear_reduction" (mo_gr mo) /\
  given "battery_resistance" (mo_rb mo) /\ given "battery_voltage" (mo_eo mo) /\
  given "speed_control_resistance" (mo_rc mo).

(** Electric motor [mo] at throttle [t]: current [i] in the loop of battery, speed
    control and motor (the speed control passes the fraction [t] of the battery voltage
    with the efficiency 1 - 0.079 (1 - t)), voltage induced by the rotation at [n]
    revolutions of the propeller per second. *)
Definition control (t : R) : R := (1 - 79 / 1000 * (1 - t)) * t.
Definition emf (mo : motor R) (n : R) : R := 60 * n * mo_gr mo / mo_kv mo.
Definition loop_current (mo : motor R) (t n i : R) : Prop :=
  control t * (mo_eo mo - mo_rb mo * i) = emf mo n + (mo_rm mo + mo_rc mo) * i.
(** Torque in newton metres: given in foot pounds if the units are "English". *)
Definition newton_metres (units : option string) (x : R) : R :=
  match units with
  | Some u => if String.eqb u "English" then x * (13558179483314 / 10 ^ 13) else x
  | None => x
  end.
(** The shaft delivers the electric power that is not lost: voltage times the current
    above the no-load current, to one part in a million. *)
Definition motor_torque_spec (units : option string) (mo : motor R) (t n x : R) : Prop :=
  exists i, loop_current mo t n i /\
    let p := emf mo n * (i - mo_io mo) in
    Rabs (newton_metres units x * (2 * PI * n) - p) <= / 10 ^ 6 * Rabs p.
