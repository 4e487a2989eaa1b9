(** Vocabulary for the properties of MachUp (C08, C17, C27, C33-C47). *)
From Coq Require Import Reals String Bool Arith List.
From Verif Require Import Base Num RVec Geometry Grid LLModel PropModel Spec_Grid Spec_LL MU.
Import ListNotations.
Set Implicit Arguments.
Local Open Scope string_scope.

(** The dictionary is given and not empty. *)
Definition given {T} (a : aero_state T) : Prop := an a <> [] \/ als a <> None.

(** Solves leave the numbers of the flow dictionary alone (they may set local_state, and do not
    remove it).  The derivative, trim and stall routines are stated for everything that
    solves like this; C34_solve_keeps_numbers: MachUp objects do. *)
Definition keeps_numbers {T S} (H : host T S) : Prop :=
  forall a c s r a' s', h_solve H a c s = (r, a', s') ->
    an a' = an a /\ (als a <> None -> als a' <> None).

(** Components of forces and moments. *)
Definition components {T} : list (fm T -> T) :=
  [@FL T; @FD T; @FS T; @FX T; @FY T; @FZ T; @MX T; @MY T; @MZ T].

(** The coefficients of a derivative group: name, force or moment component, reference
    length. *)
Definition coefficients (lat long : R) : list (string * ((fm R -> R) * R)) :=
  [("CL", (@FL R, 1%R)); ("CD", (@FD R, 1%R)); ("CS", (@FS R, 1%R));
   ("CX", (@FX R, 1%R)); ("CY", (@FY R, 1%R)); ("CZ", (@FZ R, 1%R));
   ("Cl", (@MX R, lat)); ("Cm", (@MY R, long)); ("Cn", (@MZ R, lat))].

(** [d] contains, under the nine names with [suffix], the central differences of the
    components over a step of [2 * h] (in the unit the derivative is taken in), divided by
    [q] = dynamic pressure times area and by the reference length. *)
Definition central_differences (d : dict R) (suffix : string) (lat long q h : R) (forw back : fm R)
  : Prop :=
  forall name f len, In (name, (f, len)) (coefficients lat long) ->
    dget d (String.append name suffix) = Some ((f forw - f back) / (2 * h * q * len))%R.

(** dynamic pressure: density and airspeed of the dictionary, or the documented defaults *)
Definition dynamic_pressure (a : dict R) : R :=
  let rho := match dget a "rho" with Some x => x | None => 23769 / 10000000 end%R in
  let V := match dget a "V_mag" with Some x => x | None => 10 end%R in
  (/ 2 * rho * V ^ 2)%R.

(** The calls recorded in [l] are solves made one after the other, the first with the
    model in state [s], and they left it in state [s']. *)
Fixpoint performed {T S} (H : host T S) (s : S) (l : list (call T S)) (s' : S) : Prop :=
  match l with
  | [] => s' = s
  | k :: l => (exists a, h_solve H (k_a k) (k_c k) s = (k_r k, a, k_after k)) /\ performed H (k_after k) l s'
  end.

(** What a new object computes for these dictionaries. *)
Definition forces {T} {N : num_ops T} (E : menv T) (X : machup T) (ps : option (dict (pval T)))
           (a : aero_state T) (c : option (dict T)) : res (fm T) :=
  fst (fst (h_solve (host_of E X ps) a c (init_mstate X))).

(** *** Histories: the state of an object after solves with arbitrary arguments *)
Record mu_call (T : Type) : Type := MkMuCall {
  mc_cg : vec3 T; mc_ps : option (dict (pval T)); mc_aero : aero_state T; mc_ctl : option (dict T)
}.
Definition mu_after {T} {N : num_ops T} (E : menv T) (X : machup T) (h : list (mu_call T)) : mstate T :=
  fold_left (fun s k => snd (h_solve (host_of E (with_cg (mc_cg k) X) (mc_ps k)) (mc_aero k) (mc_ctl k) s))
            h (init_mstate X).

(** np.linalg.inv returns left inverses only *)
Definition exact_inv (inv : list (list R) -> option (list (list R))) : Prop :=
  forall A B, inv A = Some B -> square A /\ square B /\ List.length B = List.length A /\
    forall x, List.length x = List.length A ->
      map (fun row => row_times row (map (fun row => row_times row x) A)) B = x.
(** ... and does so for every matrix of two rows that has one *)
Definition finds_inv2 (inv : list (list R) -> option (list (list R))) : Prop :=
  forall a b c d : R, (a * d - b * c <> 0)%R -> inv [[a; b]; [c; d]] <> None.

(** The call [k] solved with these dictionaries (flow without local_state) and returned [f]. *)
Definition solved_at {T S} (k : call T S) (a : dict T) (c : option (dict T)) (f : fm T) : Prop :=
  an (k_a k) = a /\ k_c k = c /\ k_r k = Ok f.
(** The call [k] was made with these numbers and raised [e]. *)
Definition failed_at {T S} (k : call T S) (a : dict T) (c : option (dict T)) (e : exn) : Prop :=
  an (k_a k) = a /\ k_c k = c /\ k_r k = Err e.

(** A dictionary of numbers without local_state. *)
Definition numbers {T} (a : dict T) : aero_state T := MkAero a None.

(** *** The derivative groups of an airplane whose forces are a function [F] of the flow
    dictionary [a] and the control dictionary [c]; [r] are the reference quantities. *)
Section Groups.
  Local Open Scope R_scope.
  Variable F : dict R -> dict R -> res (fm R).
  Variable r : refs R.

  (** central differences over +-0.5 degrees of angle of attack and sideslip *)
  Definition stability_group (a c d : dict R) : Prop :=
    exists b1 f1 b2 f2,
      let alpha := entry a "alpha" in let beta := entry a "beta" in
      let a1 := dset a "alpha" alpha in let q := dynamic_pressure a * r_Sw r in
      F (dset a "alpha" (alpha - 1 / 2)) c = Ok b1 /\ F (dset a "alpha" (alpha + 1 / 2)) c = Ok f1 /\
      F (dset a1 "beta" (beta - 1 / 2)) c = Ok b2 /\ F (dset a1 "beta" (beta + 1 / 2)) c = Ok f2 /\
      central_differences d "_a" (r_lat r) (r_long r) q (degrees (1 / 2)) f1 b1 /\
      central_differences d "_b" (r_lat r) (r_long r) q (degrees (1 / 2)) f2 b2.

  (** ... over +-0.005 of the non-dimensional rates, rate * length / (2 V) *)
  Definition damping_group (a c d : dict R) : Prop :=
    exists b1 f1 b2 f2 b3 f3,
      let V := match dget a "V_mag" with Some x => x | None => 10 end in
      let p := entry a "roll_rate" in let q := entry a "pitch_rate" in let y := entry a "yaw_rate" in
      let dlat := / 200 * (2 * V / r_lat r) in let dlong := / 200 * (2 * V / r_long r) in
      let a1 := dset a "roll_rate" p in let a2 := dset a1 "pitch_rate" q in
      let qS := dynamic_pressure a * r_Sw r in
      F (dset a "roll_rate" (p - dlat)) c = Ok b1 /\ F (dset a "roll_rate" (p + dlat)) c = Ok f1 /\
      F (dset a1 "pitch_rate" (q - dlong)) c = Ok b2 /\ F (dset a1 "pitch_rate" (q + dlong)) c = Ok f2 /\
      F (dset a2 "yaw_rate" (y - dlat)) c = Ok b3 /\ F (dset a2 "yaw_rate" (y + dlat)) c = Ok f3 /\
      central_differences d "_pbar" (r_lat r) (r_long r) qS (/ 200) f1 b1 /\
      central_differences d "_qbar" (r_lat r) (r_long r) qS (/ 200) f2 b2 /\
      central_differences d "_rbar" (r_lat r) (r_long r) qS (/ 200) f3 b3.

  (** ... over +-0.25 degrees of the four controls *)
  Definition control_group (a c d : dict R) : Prop :=
    exists b1 f1 b2 f2 b3 f3 b4 f4,
      let x0 := entry c "aileron" in let x1 := entry c "elevator" in
      let x2 := entry c "rudder" in let x3 := entry c "flap" in
      let c1 := dset c "aileron" x0 in let c2 := dset c1 "elevator" x1 in let c3 := dset c2 "rudder" x2 in
      let q := dynamic_pressure a * r_Sw r in
      F a (dset c "aileron" (x0 - 1 / 4)) = Ok b1 /\ F a (dset c "aileron" (x0 + 1 / 4)) = Ok f1 /\
      F a (dset c1 "elevator" (x1 - 1 / 4)) = Ok b2 /\ F a (dset c1 "elevator" (x1 + 1 / 4)) = Ok f2 /\
      F a (dset c2 "rudder" (x2 - 1 / 4)) = Ok b3 /\ F a (dset c2 "rudder" (x2 + 1 / 4)) = Ok f3 /\
      F a (dset c3 "flap" (x3 - 1 / 4)) = Ok b4 /\ F a (dset c3 "flap" (x3 + 1 / 4)) = Ok f4 /\
      central_differences d "_da" (r_lat r) (r_long r) q (degrees (1 / 4)) f1 b1 /\
      central_differences d "_de" (r_lat r) (r_long r) q (degrees (1 / 4)) f2 b2 /\
      central_differences d "_dr" (r_lat r) (r_long r) q (degrees (1 / 4)) f3 b3 /\
      central_differences d "_df" (r_lat r) (r_long r) q (degrees (1 / 4)) f4 b4.
End Groups.

(** Forces of a new object as a function of the two dictionaries. *)
Definition forces_of {T} {N : num_ops T} (E : menv T) (X : machup T) (ps : option (dict (pval T)))
           (a c : dict T) : res (fm T) := forces E X ps (numbers a) (Some c).
(** The dictionary with the entry values of these keys written back (0 if absent). *)
Definition rewritten (d : dict R) (keys : list string) : dict R :=
  fold_left (fun x k => dset x k (entry d k)) keys d.

(** *** target_lift *)
(** [k] solved with angle of attack [x], all other entries as in [d] and controls [c], and
    found the lift to be [y] above the target. *)
Definition lift_at {T} {N : num_ops T} {S} (d : dict T) (c : option (dict T)) (target : T)
           (k : call T S) (x y : T) : Prop :=
  exists f, solved_at k (dset d "alpha" x) c f /\ y = nsub (FL f) target.

(** Number systems with a "not a number" as in IEEE arithmetic: 0/0 gives it, it spreads
    through subtraction and compares false. *)
Record has_nan (T : Type) (N : num_ops T) (nan : T) : Prop := {
  nan_zero_zero : forall x y z : T, ndiv (nmul y (nsub x x)) (nsub z z) = nan;
  nan_sub_l : forall x : T, nsub nan x = nan;
  nan_sub_r : forall x : T, nsub x nan = nan;
  nan_less : forall x : T, nltb (nabs nan) x = false
}.

(** *** pitch_trim *)
(** [k] solved with angle of attack [x] and elevator [y], everything else as in [d] and [c],
    with lift and pitching moment closer than [error] to the targets. *)
Definition trimmed_at {T} {N : num_ops T} {S} (d c : dict T) (L m error : T) (k : call T S) (x y : T) : Prop :=
  exists f, solved_at k (dset d "alpha" x) (Some (dset c "elevator" y)) f /\
    nltb (nabs (nsub (FL f) L)) error = true /\ nltb (nabs (nsub (MY f) m)) error = true.

(** *** stall_onset, stall_airspeed *)
(** 0, 0.1, 0.2, ... by repeated addition *)
Fixpoint tenths {T} {N : num_ops T} (k : nat) : T :=
  match k with
  | 0%nat => n0
  | Datatypes.S k => nadd (tenths k) (ndec 1 1)
  end.
(** The calls [l] are solves at 0, 0.1, 0.2, ... degrees, everything else as in [d] and [c];
    after each the wing model answered "not stalled" to the stall check, except after the
    last one, for which it named the wing and the position of the report [i]. *)
Definition stall_scan {T} {N : num_ops T} {S} (stalled : S -> res (option (string * T))) (round2 : T -> T)
    (d : dict T) (c : option (dict T)) (l : list (call T S)) (i : stall_info T) : Prop :=
  (forall j k, nth_error l j = Some k -> exists f, solved_at k (dset d "alpha" (tenths j)) c f) /\
  (forall j k, nth_error l j = Some k -> (Datatypes.S j < List.length l)%nat -> stalled (k_after k) = Ok None) /\
  exists n k f, List.length l = Datatypes.S n /\ nth_error l n = Some k /\ k_r k = Ok f /\
    stalled (k_after k) = Ok (Some (si_wing i, si_span i)) /\
    si_lift i = FL f /\ si_alpha i = round2 (tenths n).
(** The last two scans [l0], [l1], at airspeeds [x0] and [x1], and the secant step [x2] from them
    towards stalling lift equal to weight, which moved the airspeed by less than [error]. *)
Definition last_scans {T} {N : num_ops T} {S} (scan : dict T -> option (dict T) -> list (call T S) -> stall_info T -> Prop)
    (weight error : T) (d : dict T) (c : option (dict T)) (l0 l1 : list (call T S)) (x0 x1 x2 : T) (i0 i1 i : stall_info T) : Prop :=
  scan (dset d "V_mag" x0) c l0 i0 /\ scan (dset d "V_mag" x1) c l1 i1 /\
  (let y0 := nsub (si_lift i0) weight in let y1 := nsub (si_lift i1) weight in
   x2 = nsub x1 (ndiv (nmul y1 (nsub x1 x0)) (nsub y1 y0))) /\
  nltb (nabs (nsub x2 x1)) error = true /\
  i = MkStall (si_wing i1) (si_span i1) (si_alpha i1) (si_lift i1) (Some x2).

(** *** find_aero_center *)
(** At angle of attack [x] (degrees) the forces and moment [f] follow lift, drag and moment
    models with these coefficients ([q]: dynamic pressure times area). *)
Record polar : Type := MkPolar {
  p_slope : R; p_aL0 : R; p_CD0 : R; p_CD1 : R; p_CD2 : R; p_Cm0 : R; p_CmN : R; p_CmA : R }.
Definition follows (p : polar) (q long x : R) (f : fm R) : Prop :=
  let a := degrees x in
  let CN := (- FZ f / q)%R in let CA := (- FX f / q)%R in
  let CL := (CN * cos a - CA * sin a)%R in let CD := (CA * cos a + CN * sin a)%R in
  (CL = p_slope p * (sin a - tan (p_aL0 p) * cos a))%R /\
  (CD = p_CD0 p + p_CD1 p * CL + p_CD2 p * CL ^ 2)%R /\
  (MY f / q / long = p_Cm0 p * sin (2 * a) + p_CmN p * CN + p_CmA p * CA)%R.
(** The aerodynamic centre for such an airplane at angle of attack [ao] (degrees). *)
Definition center_for (p : polar) (long ao : R) (cg : vec3 R) : vec3 R :=
  (let o := degrees ao in
   let D := 2 * p_slope p + 3 * p_CD0 p - 2 * p_CD2 p * p_slope p ^ 2 in
   V3 (vx cg + long * ((4 + 2 * p_CD0 p / p_slope p + (12 * o ^ 2 - 4) * p_CD2 p * p_slope p) / D * p_Cm0 p + p_CmN p))
      0
      (vz cg - long * ((4 * p_aL0 p + 4 * p_CD1 p + 12 * o * p_CD2 p * p_slope p) / D * p_Cm0 p + p_CmA p)))%R.

(** *** MachUp.solve and its dictionary objects (C27) *)
(** One call of solve on a MachUp object: the caller's dictionaries, the propeller state
    (and centre of gravity) in force. *)
Record obj_call (T : Type) : Type := MkObjCall {
  oc_aero : option (aero_state T); oc_ctl : option (dict T);
  oc_ps : option (dict (pval T)); oc_cg : vec3 T; oc_file : option string
}.
(** model state and result dictionaries created so far, after the call; the value returned *)
Definition obj_step {T} {N : num_ops T} (E : menv T) (X : machup T) (k : obj_call T) (q : mstate T * list (dict T))
  : res nat * (mstate T * list (dict T)) :=
  let w := MkW (oc_aero k) (oc_ctl k) (fst q) [] [] in
  let '(r, (w', hp)) := solve_obj E (with_cg (oc_cg k) X) (oc_ps k) (oc_file k) (w, snd q) in
  (r, (w_model w', hp)).
Definition obj_after {T} {N : num_ops T} (E : menv T) (X : machup T) (ks : list (obj_call T)) (q : mstate T * list (dict T))
  : mstate T * list (dict T) :=
  fold_left (fun q k => snd (obj_step E X k q)) ks q.
