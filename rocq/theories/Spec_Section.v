(** Vocabulary for the blade sections (C70) and the equation for the induced angle (C53):
    lift and drag of a section in terms of the airfoil data and the rows of the blade
    distributions.  Independent of the functions that model propmodel.py. *)
From Coq Require Import Reals String List.
From Verif Require Import Base Num Geometry Grid LLModel PropModel Spec_Grid Spec_LL Spec_Prop Spec_Blade Spec_Stl.
Import ListNotations.
Local Open Scope string_scope.
Local Open Scope R_scope.

(** *** Data of a section *)
Record section : Type := MkSection {
  s_zero_lift : R;                (* zero-lift angle *)
  s_slope : R; s_max : R;         (* lift slope, maximum lift coefficient *)
  s_cd0 : R; s_cd1 : R; s_cd2 : R (* drag polar *)
}.
(** At relative radius [z] of a blade with the airfoils [placed]: see C65. *)
Definition section_at (placed : list (R * airfoil R)) (z : R) : section :=
  let along (f : airfoil R -> R) := broken_line (map (fun q => (fst q, f (snd q))) placed) z in
  MkSection (along (@af_alpha_L0 R)) (along (@af_CL_alpha R)) (along (@af_CL_max R))
            (along (@af_CD_0 R)) (along (@af_CD_L R)) (along (@af_CD_L2 R)).

Definition polar (S : section) (cl : R) : R := s_cd0 S + s_cd1 S * cl + s_cd2 S * cl ^ 2.
(** Stall angles (from zero lift) of the section at rest, upright and inverted. *)
Definition stall_up (S : section) : R := s_max S / s_slope S.
Definition stall_down (S : section) : R := stall_up S + 3 / 2 * s_zero_lift S.
(** Stall delay due to rotation (Corrigan) at chord over radius [cr]. *)
Definition stall_delay (S : section) (cr : R) : R :=
  stall_up S * (Rpower (1517 / 10000 / cr) (1 / (1084 / 1000)) * cr / (136 / 1000) - 1).

(** *** Lift *)
(** Deep stall (Viterna): [x] is the angle of attack; the constant [A] is fixed by the lift
    coefficient [m] at the stall angle [st]. *)
Definition deep_stall_lift (A x : R) : R := 129 / 100 * sin x * cos x + A * (cos x) ^ 2 / sin x.
Definition lift_fixed (A st m : R) : Prop := sin st <> 0 -> cos st <> 0 -> deep_stall_lift A st = m.
(** Lift at [x] of a section with slope [a] that stalls at [st]: proportional below two
    degrees, then a transition to deep stall centred at [st]. *)
Definition section_lift (a st A x cl : R) : Prop :=
  (x < degrees 2 -> cl = a * x) /\
  (degrees 2 <= x -> exists w, 0 < w < 1 /\ (w < 1 / 2 <-> x < st) /\ (w = 1 / 2 <-> x = st) /\
     w = (tanh ((x - st) * 180 / PI) + 1) / 2 /\ cl = (1 - w) * (a * x) + w * deep_stall_lift A x).
(** Rotation shifts the curve by the delay, along the line of proportional lift. *)
Definition rotating_lift (S : section) (cr alpha cl : R) : Prop :=
  let dl := stall_delay S cr in
  (0 < alpha -> exists A y, lift_fixed A (stall_up S) (s_max S) /\
     section_lift (s_slope S) (stall_up S) A (alpha - dl) y /\ cl = y + s_slope S * dl) /\
  (alpha < 0 -> exists A y, lift_fixed A (stall_down S) (s_slope S * stall_down S) /\
     section_lift (s_slope S) (stall_down S) A (- alpha - dl) y /\ cl = - (y + s_slope S * dl)).

(** *** Drag *)
Definition deep_stall_drag (B x : R) : R := 129 / 100 * (sin x) ^ 2 + B * cos x.
(** The drag polar between the stall limits, deep stall beyond; the constant [B] is fixed by
    the polar at the limit. *)
Definition rotating_drag (S : section) (cr alpha cl cd : R) : Prop :=
  let up := stall_delay S cr + stall_up S in
  let down := stall_delay S cr - stall_up S in
  (down < alpha < up -> cd = polar S cl) /\
  (up < alpha -> down <= alpha -> exists B, (cos up <> 0 -> deep_stall_drag B up = polar S (s_slope S * up)) /\ cd = deep_stall_drag B alpha) /\
  (alpha < down -> exists B, (cos down <> 0 -> deep_stall_drag B down = polar S (s_slope S * down)) /\ cd = deep_stall_drag B alpha).

(** Row [b] obeys both laws. *)
Definition obeys_section (S : section) (b : blade_row (T := R)) : Prop :=
  let alpha := degrees (b_alpha b) in let cr := b_chord b / b_r b in
  rotating_lift S cr alpha (b_cl b) /\ rotating_drag S cr alpha (b_cl b) (b_cd b).

(** *** Equation for the induced angle (Goldstein's vortex theory with Prandtl's tip loss) *)
Definition tip_factor (k : nat) (tip z : R) : R := acos (exp (- (INR k * (1 - z)) / (2 * sin tip))).
Definition vortex_imbalance (k : nat) (d tip : R) (r c advance induced cl : R) : R :=
  INR k * c / (16 * r) * cl - tip_factor k tip (2 * r / d) * tan induced * sin (advance + induced).
(** What [_correct_ei] does to an angle: at most one radian, in the direction from advance
    angle to pitch. *)
Definition corrected (direction x y : R) : Prop :=
  let x' := if Rlt_dec (Rabs x) 1 then x else 3 / 10 * sign direction in
  y = x' \/ y = - x'.
(** The induced angle in row [b] of a [k]-bladed propeller of diameter [d], pitch [tip] at
    the last node: two trial angles [x0], [x1] whose imbalances differ by at most 1e-11
    ([settled]), or the secant intersection of two that differ by more. *)
Definition last_trials (k : nat) (d tip : R) (S : section) (b : blade_row (T := R)) (settled : bool) : Prop :=
  let beta := degrees (b_pitch b) in let einf := degrees (b_advance b) in
  let imb x cl := vortex_imbalance k d tip (b_r b) (b_chord b) einf x cl in
  exists x0 c0 x1 c1 x,
    rotating_lift S (b_chord b / b_r b) (beta - einf - x0) c0 /\
    rotating_lift S (b_chord b / b_r b) (beta - einf - x1) c1 /\
    corrected (beta - einf) x (degrees (b_induced b)) /\
    if settled then Rabs (imb x1 c1 - imb x0 c0) <= 1 / 10 ^ 11 /\ (x = x0 \/ x = x1)
    else 1 / 10 ^ 11 < Rabs (imb x1 c1 - imb x0 c0) /\
         (x - x1) * (imb x1 c1 - imb x0 c0) = - (imb x1 c1 * (x1 - x0)).
Definition unsettled (l : list bool) : nat := List.length (filter negb l).

(** *** Results *)
(** [b] is a row of the blade distributions of propeller [p] after some successful call,
    whatever calls went before. *)
Definition blade_result (p : prop R) (b : blade_row (T := R)) : Prop :=
  exists E u wp g cg n aero ps gs h r ss' s',
    make_pgeom E u wp p = Ok g /\
    props_solve E cg n aero ps gs (props_after E n gs h) = (Ok r, ss') /\
    In (g, s') (combine gs ss') /\ In b (prop_rows g s').
(** All blade sections of [p] are the airfoil with the data [S]. *)
Definition one_airfoil (p : prop R) (S : section) : Prop :=
  exists k a, pr_airfoils p = [(k, a)] /\
    S = MkSection (af_alpha_L0 a) (af_CL_alpha a) (af_CL_max a) (af_CD_0 a) (af_CD_L a) (af_CD_L2 a).
