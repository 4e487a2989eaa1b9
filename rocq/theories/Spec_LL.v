(** Vocabulary for the properties of the lifting-line solve (C18-C32).  Independent
    of the functions that model the code: data records, vector operations. *)
From Coq Require Import Reals String Bool Arith List.
From Verif Require Import Base Num RVec Geometry Grid LLModel Spec_Grid.
Import ListNotations.
Set Implicit Arguments.

(** *** Calls and histories *)

(** One call of [LLModel.solve], with the centre of gravity the airplane has then. *)
Record solve_call (T : Type) : Type := MkSolveCall {
  k_cg : vec3 T;
  k_stype : string;
  k_aero : option (aero_state T);
  k_ctl : option (dict T)
}.

Section Calls.
  Context {T : Type} {N : num_ops T}.

  Definition call_solve (ls : linear_solver (T := T)) (g : grid T) (c : solve_call T) :=
    ll_solve ls g (k_cg c) (k_stype c) (k_aero c) (k_ctl c).

  (** A new [LLModel] for the grid, and one on which calls were made (returning or
      raising). *)
  Definition fresh (g : grid T) : ll_state T := init_ll (g_num g).
  Definition after (ls : linear_solver (T := T)) (g : grid T) (h : list (solve_call T))
    : ll_state T :=
    fold_left (fun s c => snd (call_solve ls g c s)) h (fresh g).

  (** The dictionary argument is given and not empty. *)
  Definition given_aero (a : option (aero_state T)) : Prop :=
    exists d, a = Some d /\ (an d <> [] \/ als d <> None).
  Definition given_control (c : option (dict T)) : Prop := exists d, c = Some d /\ d <> [].

  (** What the user can read from the model after a solve. *)
  Definition observed (g : grid T) (s : ll_state T) :=
    (l_results s, l_gamma s, ll_distributions g s, find_stall_location g s).

  (** The flow description is usable on a grid of [n] sections: none or empty, or an
      array with one row or [n] rows, or with both keys V_mag and rho. *)
  Definition usable_flow (n : nat) (a : option (aero_state T)) : Prop :=
    match a with
    | None => True
    | Some d =>
        match als d with
        | Some rows => List.length rows = 1 \/ List.length rows = n
        | None => an d = [] \/ (dget (an d) "V_mag" <> None /\ dget (an d) "rho" <> None)
        end
    end.
  Definition usable_flowb (n : nat) (a : option (aero_state T)) : bool :=
    match a with
    | None => true
    | Some d =>
        match als d with
        | Some rows => Nat.eqb (List.length rows) 1 || Nat.eqb (List.length rows) n
        | None => negb (dtruthy (an d)) || (dmem (an d) "V_mag" && dmem (an d) "rho")
        end
    end.

  (** The control state in force after a history: that of the most recent call that
      gave a non-empty one together with a usable flow. *)
  Fixpoint control_in_force (n : nat) (old : option (dict T)) (h : list (solve_call T))
    : option (dict T) :=
    match h with
    | [] => old
    | c :: h =>
        control_in_force n
          (match k_ctl c with
           | Some (e :: d) => if usable_flowb n (k_aero c) then Some (e :: d) else old
           | _ => old
           end) h
    end.
End Calls.

Local Open Scope R_scope.

(** *** Linear systems *)
Definition row_times (row x : list R) : R := nsum (map2 Rmult row x).
Definition square (A : list (list R)) : Prop :=
  Forall (fun row => List.length row = List.length A) A.
Definition solves (A : list (list R)) (b x : list R) : Prop :=
  List.length x = List.length A /\ map (fun row => row_times row x) A = b.
(** What is assumed of [numpy.linalg.solve], in exact arithmetic: it returns the
    solution of a square system when it is unique and raises otherwise. *)
Definition exact_solver (ls : list (list R) -> list R -> option (list R)) : Prop :=
  forall A b, square A -> List.length b = List.length A ->
    match ls A b with
    | Some x => solves A b x /\ forall y, solves A b y -> y = x
    | None => ~ exists x, solves A b x /\ forall y, solves A b y -> y = x
    end.

(** *** Flow *)

(** [v] is the velocity of the air relative to an airplane flying at airspeed [V]
    with angle of attack [alpha] and sideslip [beta] (radians). *)
Definition airflow (V alpha beta : R) (v : vec3 R) : Prop :=
  vnorm v = V /\
  exists m, 0 < m /\ v = vscale (- m) (V3 (cos alpha * cos beta) (cos alpha * sin beta) (sin alpha * cos beta)).
Definition degrees (x : R) : R := x * PI / 180.
(** numeric entry of a state dictionary, zero if absent *)
Definition entry (d : dict R) (k : string) : R := match dget d k with Some x => x | None => 0 end.
Definition body_rates (d : dict R) : vec3 R :=
  V3 (entry d "roll_rate") (entry d "pitch_rate") (entry d "yaw_rate").

(** *** Forces *)
Definition force_of (f : fm R) : vec3 R := V3 (FX f) (FY f) (FZ f).
Definition moment_of (f : fm R) : vec3 R := V3 (MX f) (MY f) (MZ f).
Definition vtotal {A} (f : A -> vec3 R) (l : list A) : vec3 R :=
  V3 (total (fun x => vx (f x)) l) (total (fun x => vy (f x)) l) (total (fun x => vz (f x)) l).

(** Unit vectors of the wind axes for the freestream direction [u]. *)
Record wind_frame (u l s : vec3 R) : Prop := {
  wf_uu : vdot u u = 1; wf_ll : vdot l l = 1; wf_ss : vdot s s = 1;
  wf_ul : vdot u l = 0; wf_us : vdot u s = 0; wf_ls : vdot l s = 0;
  wf_lift_normal_to_y : vy l = 0;
  wf_lift_up : 0 < vdot l (vcross u (V3 0 1 0));
  wf_side : s = vcross l u
}.

(** The three dictionaries of a result: results["inviscid"], ["viscous"], ["total"]. *)
Definition parts (r : ll_results R) : list (fm R) := [r_inviscid r; r_viscous r; r_total r].

(** All components multiplied by [k]. *)
Definition fm_times (k : R) (a : fm R) : fm R :=
  MkFM (k * FL a) (k * FD a) (k * FS a) (k * FX a) (k * FY a) (k * FZ a)
       (k * MX a) (k * MY a) (k * MZ a).

(** [scaled m k a a']: state [a'] is [a] with density times [m] and all velocities
    and rotation rates times [k]. *)
Definition scaled (m k : R) (a a' : aero_state R) : Prop :=
  (forall key, dget (an a') key =
     option_map (fun x => if (key =? "rho")%string then m * x
                          else if ((key =? "V_mag") || (key =? "roll_rate") || (key =? "pitch_rate")
                                   || (key =? "yaw_rate"))%string then k * x
                          else x) (dget (an a) key)) /\
  als a' = option_map (map (fun row => (m * fst row, vscale k (snd row)))) (als a).

(** Symmetric flow and controls. *)
Definition symmetric_flow (a : aero_state R) : Prop :=
  als a = None /\ entry (an a) "beta" = 0 /\ entry (an a) "roll_rate" = 0 /\ entry (an a) "yaw_rate" = 0.
Definition symmetric_controls (c : dict R) : Prop :=
  entry c "aileron" = 0 /\ entry c "rudder" = 0.

(** Efficiency of a deflection of [d] degrees: 1 up to 11 degrees, then the linear fit. *)
Definition efficiency (d : R) : R :=
  if Rlt_dec 11 (Rabs d) then 109589743589744 / 100000000000000 - 871794871794872 / 100000000000000000 * Rabs d
  else 1.

(** *** Section aerodynamics *)

(** Deflection commanded at a section, in degrees. *)
Definition commanded (c : dict R) (s : section R) : R :=
  entry c "aileron" * s_mix_a s + entry c "elevator" * s_mix_e s +
  entry c "rudder" * s_mix_r s + entry c "flap" * s_mix_f s.
(** Value between the two ends of the segment the section belongs to. *)
Definition across (s : section R) (f : (tri R -> R) -> R) : R :=
  (1 - s_sp s) * f (@tl R) + s_sp s * f (@tr R).
(** Lift coefficient at angle of attack [alpha] with effective flap deflection [d]. *)
Definition lift_coefficient (s : section R) (alpha d : R) : R :=
  across s (fun e => e (s_cla s) * (alpha - e (s_al0 s) + d)).
(** Drag polar, and drag of a surface deflected by [d] degrees. *)
Definition drag_coefficient (s : section R) (cl d : R) : R :=
  across s (fun e => e (s_cd0 s) + e (s_cd1 s) * cl + e (s_cd2 s) * cl ^ 2) + 2 / 1000 * Rabs d.
(** Pitching moment coefficient with a surface deflected by [d] degrees. *)
Definition moment_coefficient (s : section R) (alpha d : R) : R :=
  across s (fun e => e (s_cml0 s) + e (s_cma s) * (alpha - e (s_al0 s))) + s_cmd s * degrees d.

(** *** Loads on a section *)

(** A section in operation: local velocity (without the vortices), density, commanded
    deflection in degrees, vortex strength, velocity induced by all vortices. *)
Record load : Type := MkLoad {
  ld_sec : section R; ld_v : vec3 R; ld_rho : R; ld_cmd : R; ld_gamma : R; ld_w : vec3 R
}.
Definition ld_dl (x : load) : vec3 R := vsub (s_r2 (ld_sec x)) (s_r1 (ld_sec x)).
(** velocity including induction, and the angle of attack it makes with the section *)
Definition ld_vel (x : load) : vec3 R := vadd (ld_v x) (ld_w x).
Definition ld_alpha (x : load) : R :=
  Ratan2 (vdot (ld_vel x) (s_un (ld_sec x))) (vdot (ld_vel x) (s_ua (ld_sec x))).
Definition ld_q (x : load) : R := ld_rho x * vnorm (ld_v x) ^ 2 / 2.
Definition ld_cl (x : load) : R := lift_coefficient (ld_sec x) (ld_alpha x) 0.
Definition ld_cd (x : load) : R := drag_coefficient (ld_sec x) (ld_cl x) (ld_cmd x).
Definition ld_cm (x : load) : R := moment_coefficient (ld_sec x) (ld_alpha x) (ld_cmd x).
(** vortex force (Kutta-Joukowski) and parasitic force along the velocity *)
Definition vortex_force (x : load) : vec3 R :=
  vscale (ld_rho x * ld_gamma x) (vcross (ld_vel x) (ld_dl x)).
Definition parasitic_force (x : load) : vec3 R :=
  vscale (ld_q x * ld_cd x * s_dS (ld_sec x) / vnorm (ld_vel x)) (ld_vel x).
(** moments about the centre of gravity *)
Definition vortex_moment (cg : vec3 R) (x : load) : vec3 R :=
  vsub (vcross (vsub (s_r (ld_sec x)) cg) (vortex_force x))
       (vscale (ld_q x * ld_cm x * s_ic2 (ld_sec x)) (s_us (ld_sec x))).
Definition parasitic_moment (cg : vec3 R) (x : load) : vec3 R :=
  vcross (vsub (s_r (ld_sec x)) cg) (parasitic_force x).
(** the linearised lifting-line equation *)
Definition lifting_line_equation (x : load) : Prop :=
  let s := ld_sec x in let v := ld_v x in
  2 * vnorm (vcross v (ld_dl x)) * ld_gamma x
  = vnorm v ^ 2 * s_dS s *
      lift_coefficient s (atan (vdot v (s_un s) / vdot v (s_ua s)))
                       (s_flap_eff s * efficiency (ld_cmd x) * degrees (ld_cmd x))
    + vnorm v * s_dS s * tm (s_cla s) * vdot (s_un s) (ld_w x).

(** Two reports of the same loads about centres of gravity [d] apart. *)
Definition transferred (d : vec3 R) (f f' : fm R) : Prop :=
  (FL f', FD f', FS f', FX f', FY f', FZ f') = (FL f, FD f, FS f, FX f, FY f, FZ f) /\
  moment_of f' = vsub (moment_of f) (vcross d (force_of f)).

(** *** Omitted flow *)
Definition omitted_aero {T} (a : option (aero_state T)) : Prop := a = None \/ a = Some (MkAero [] None).
Definition omitted_control {T} (c : option (dict T)) : Prop := c = None \/ c = Some [].
(** A call whose flow, if it is processed at all, is head-on with unit density. *)
Definition head_on (a : option (aero_state R)) : Prop :=
  omitted_aero a \/
  exists d, a = Some d /\ als d = None /\
    (dget (an d) "V_mag" <> None -> dget (an d) "rho" <> None ->
     dget (an d) "rho" = Some 1 /\ entry (an d) "alpha" = 0 /\ entry (an d) "beta" = 0 /\
     body_rates (an d) = V3 0 0 0).
(** A non-empty control state that deflects nothing. *)
Definition zero_controls (c : dict R) : Prop :=
  c <> [] /\ entry c "aileron" = 0 /\ entry c "elevator" = 0 /\ entry c "rudder" = 0 /\ entry c "flap" = 0.
(** The documented flow of a solve without aero_state. *)
Definition ten_head_on : aero_state R := MkAero [("V_mag", 10); ("rho", 1)]%string None.

(** The control dictionary acting in the call [k] made after the history [h]: the one
    in force at the end of the call; none at all is the empty one. *)
Definition command_of (c : option (dict R)) : dict R := match c with Some d => d | None => [] end.
Definition acting (g : grid R) (h : list (solve_call R)) (k : solve_call R) : dict R :=
  command_of (control_in_force (g_num g) None (h ++ [k])).
(** Effective deflection (radians) of a commanded one (degrees). *)
Definition effective_deflection (d : R) : R := efficiency d * degrees d.
