(** Model of /repo/machup/MU.py.

    The analysis functions of [MachUp] only use [self.solve], the stall query, the
    reference quantities and the dictionaries they are given.  They are therefore
    modelled for an arbitrary "host" (a state type with a solve function); the host of a
    real [MachUp] object is [host_of] at the end of the first part.

    The [world] of a call: the caller's two dictionaries (which the code mutates), the
    state of the model, the files written, and a log of all solves made.  The log is a
    ghost: no function reads it. *)
From Coq Require Import ZArith String Bool Arith List.
From Verif Require Import Base Num Geometry Grid LLModel PropModel.
Import ListNotations.
Set Implicit Arguments.

(** MU.py 71-93: Sw, lat_ref and long_ref; they do not exist without wings *)
Record refs (T : Type) : Type := MkRefs { r_Sw : T; r_lat : T; r_long : T }.

(** External functions: np.linalg.solve, the propellers' environment, np.linalg.inv,
    Python's round(x, 2), and the number of iterations of a [while True] loop without
    exit count after which an execution counts as not terminated. *)
Record menv (T : Type) : Type := MkME {
  me_lsolve : linear_solver (T := T);
  me_prop : penv T;
  me_inv : list (list T) -> option (list (list T));
  me_round2 : T -> T;
  me_fuel : nat
}.

(** A [MachUp] object, without the parts that calls change.  [mm_grid]: the grid of
    self.myllmodel if the airplane has wings.  [mm_cg]: the airplane's centre of gravity
    at the time of the call. *)
Record machup (T : Type) : Type := MkMU {
  mm_grid : option (grid T);
  mm_refs : option (refs T);
  mm_props : list (pgeom T);
  mm_points : option nat;                       (* wing_control_points, number of rows *)
  mm_cg : vec3 T
}.
Record mstate (T : Type) : Type := MkM { m_ll : ll_state T; m_ps : list (pstate T) }.

(** Result dictionaries *)
Record stall_info (T : Type) : Type := MkStall {
  si_wing : string; si_span : T; si_alpha : T; si_lift : T; si_airspeed : option T
}.
Record derivs (T : Type) : Type := MkDer {
  dv_stab : dict T; dv_cont : dict T; dv_damp : dict T
}.
(** a dictionary with results, or {"error": message} *)
Inductive answer (A : Type) : Type := Answer (a : A) | ErrorRecord (msg : string).
Arguments Answer {A} a.
Arguments ErrorRecord {A} msg.

(** a row of the distributions table: section and section_CL_ref *)
Record wing_row (T : Type) : Type := MkWRow { wr_row : @dist_row T; wr_cl_ref : T }.

(** What is written to a file *)
Inductive content (T : Type) : Type :=
| F_solve (wing : option (ll_results T)) (prop : option (@prop_total T)) (total : fm T)
| F_numbers (d : dict T)
| F_error (msg : string)
| F_stall (i : stall_info T)
| F_derivs (d : derivs T)
| F_wings (rows : list (wing_row T))
| F_blades (rows : list (@blade_row T))
| F_wrapped (text : list (content T)).          (* {"data": text} *)
Arguments F_solve {T}. Arguments F_numbers {T}. Arguments F_error {T}. Arguments F_stall {T}.
Arguments F_derivs {T}. Arguments F_wings {T}. Arguments F_blades {T}. Arguments F_wrapped {T}.

(** A solve made during a call: the dictionaries at the time, the result, the model
    state after it. *)
Record call (T S : Type) : Type := MkCall {
  k_a : aero_state T; k_c : option (dict T); k_r : res (fm T); k_after : S
}.

Record world (T S : Type) : Type := MkW {
  w_aero : option (aero_state T);               (* the caller's aero_state *)
  w_ctl : option (dict T);                      (* the caller's control_state *)
  w_model : S;
  w_files : dict (list (content T));
  w_log : list (call T S)
}.

Record host (T S : Type) : Type := MkHost {
  h_solve : aero_state T -> option (dict T) -> S -> res (fm T) * aero_state T * S;
  h_stalled : S -> res (option (string * T));   (* self.myllmodel._find_stall_location *)
  h_refs : option (refs T);                     (* Some: the airplane has wings *)
  h_cg : vec3 T;
  h_parts : bool                                (* the airplane has wings or propellers *)
}.

Section Construct.
  Context {T : Type} {N : num_ops T}.
  Local Open Scope string_scope.
  Local Open Scope num_scope.

  (** MU.py 81-86 *)
  Definition widest (segs : list (segment T)) : T :=
    fold_left (fun m s => let span := n2 * sg_span s in if ngtb span m then span else m) segs n0.

  (** MU.py 73-93 (the division is numpy's: no exception for zero) *)
  Definition make_refs (pl : airplane T) (g : grid T) : refs T :=
    let Sw := g_ref_area g in
    match a_lat_ref pl, a_long_ref pl with
    | None, None => let lat := widest (g_segments g) in MkRefs Sw lat (Sw / lat)
    | Some lat, None => MkRefs Sw lat (Sw / lat)
    | None, Some long => MkRefs Sw (Sw / long) long
    | Some lat, Some long => MkRefs Sw lat long
    end.

  (** MU.py 62-99: MachUp.__init__ for an Airplane object (with inputfile the airplane is
      the one loaded from it, see [load_file]); self.myairplane stays None otherwise. *)
  Definition make_machup (M : menv T) (pl : airplane T) : res (machup T) :=
    rlet wings := match a_wings pl with
                  | [] => Ok None
                  | _ => rlet g := make_grid true pl in Ok (Some g)
                  end in
    let pts := option_map (fun g => map (@s_r T) (g_sections g)) wings in
    rlet props := match a_props pl with
                  | [] => Ok []
                  | _ => make_props (me_prop M) pl pts
                  end in
    Ok (MkMU wings (option_map (make_refs pl) wings) props (option_map (@List.length _) pts) (a_cg pl)).

  (** the state of a new object *)
  Definition init_mstate (X : machup T) : mstate T :=
    MkM (init_ll (match mm_grid X with Some g => g_num g | None => 0%nat end))
        (map init_pstate (mm_props X)).
  (** the same object after the airplane's cg_location *)
  Definition with_cg (cg : vec3 T) (X : machup T) : machup T :=
    MkMU (mm_grid X) (mm_refs X) (mm_props X) (mm_points X) cg.

  (** {"V_mag":10, "rho":0.0023769, "alpha":0} and without alpha *)
  Definition default_aero : aero_state T :=
    MkAero [("V_mag", nint 10); ("rho", ndec 23769 7); ("alpha", n0)] None.
  Definition default_aero_2 : aero_state T := MkAero [("V_mag", nint 10); ("rho", ndec 23769 7)] None.
  Definition default_ctl : dict T := [("aileron", n0); ("elevator", n0); ("rudder", n0); ("flap", n0)].

  Definition zero_fm : fm T := MkFM n0 n0 n0 n0 n0 n0 n0 n0 n0.
  (** aero_state["local_state"] = velocity_array *)
  Definition set_local (a : aero_state T) (rows : list (T * vec3 T)) : aero_state T :=
    MkAero (an a) (Some rows).

  (** MU.py 147-171: the part of solve for a non-empty aero_state: wing and propeller
      results, totals; the dictionary and the model after it *)
  Definition solve_parts (E : menv T) (X : machup T) (ps : option (dict (pval T)))
             (a : aero_state T) (ctl : option (dict T)) (s : mstate T)
    : res (option (ll_results T) * option (@prop_total T) * fm T) * aero_state T * mstate T :=
    let run_wings (pr : option prop_total) (a : aero_state T) (s : mstate T) :=
      match mm_grid X with
      | None =>
          (Ok (None, pr, add_fm (match pr with Some p => pt_fm p | None => zero_fm end) zero_fm), a, s)
      | Some g =>
          match ll_solve (me_lsolve E) g (mm_cg X) "linear" (Some a) ctl (m_ll s) with
          | (Err e, l) => (Err e, a, MkM l (m_ps s))
          | (Ok r, l) =>
              match read_ref l r with
              | None => (Err AttributeError, a, MkM l (m_ps s))     (* does not occur *)
              | Some w =>
                  (Ok (Some w, pr, add_fm (match pr with Some p => pt_fm p | None => zero_fm end) (r_total w)),
                   a, MkM l (m_ps s))
              end
          end
      end in
    match mm_props X with
    | [] => run_wings None a s
    | gs =>
        match props_solve (me_prop E) (mm_cg X) (mm_points X) (Some a) ps gs (m_ps s) with
        | (Err e, ss) => (Err e, a, MkM (m_ll s) ss)
        | (Ok (pt, rows), ss) =>
            run_wings (Some pt) (match rows with Some r => set_local a r | None => a end) (MkM (m_ll s) ss)
        end
    end.

  Definition host_of (E : menv T) (X : machup T) (ps : option (dict (pval T))) : host T (mstate T) :=
    {| h_solve := fun a c s => let '(r, a', s') := solve_parts E X ps a c s in
                               (rlet q := r in Ok (snd q), a', s');
       h_stalled := fun s => match mm_grid X with
                             | Some g => find_stall_location g (m_ll s)
                             | None => Err AttributeError
                             end;
       h_refs := mm_refs X;
       h_cg := mm_cg X;
       h_parts := match mm_grid X, mm_props X with None, [] => false | _, _ => true end |}.
End Construct.

Section Analysis.
  Context {T : Type} {N : num_ops T} {S : Type}.
  Variable H : host T S.
  Local Open Scope string_scope.
  Local Open Scope num_scope.
  Notation W := (world T S).

  (** *** Reading and writing the dictionaries, files *)
  Definition put_aero (a : option (aero_state T)) (w : W) : W :=
    MkW a (w_ctl w) (w_model w) (w_files w) (w_log w).
  Definition put_ctl (c : option (dict T)) (w : W) : W :=
    MkW (w_aero w) c (w_model w) (w_files w) (w_log w).
  Definition put_file (f : string) (l : list (content T)) (w : W) : W :=
    MkW (w_aero w) (w_ctl w) (w_model w) (dset (w_files w) f l) (w_log w).

  (** aero_state[key] = x, control_state[key] = x *)
  Definition set_aero (key : string) (x : T) : st W unit :=
    smod (fun w => put_aero (option_map (fun a => MkAero (dset (an a) key x) (als a)) (w_aero w)) w).
  Definition set_ctl (key : string) (x : T) : st W unit :=
    smod (fun w => put_ctl (option_map (fun c => dset c key x) (w_ctl w)) w).
  (** aero_state.get(key, x): AttributeError on None *)
  Definition get_aero (key : string) (x : T) : st W T :=
    fun w => match w_aero w with
             | Some a => (Ok (dgetd (an a) key x), w)
             | None => (Err AttributeError, w)
             end.
  Definition get_ctl (key : string) (x : T) : st W T :=
    fun w => match w_ctl w with
             | Some c => (Ok (dgetd c key x), w)
             | None => (Err AttributeError, w)
             end.

  (** Calling with another dictionary (a default, or a copy): the caller's own is not
      touched. *)
  Definition with_aero {A} (a : aero_state T) (m : st W A) : st W A :=
    fun w => let (r, w') := m (put_aero (Some a) w) in (r, put_aero (w_aero w) w').
  Definition with_ctl {A} (c : dict T) (m : st W A) : st W A :=
    fun w => let (r, w') := m (put_ctl (Some c) w) in (r, put_ctl (w_ctl w) w').

  Definition aero_given (w : W) : bool :=
    match opt_truthy aero_truthy (w_aero w) with Some _ => true | None => false end.
  Definition ctl_given (w : W) : bool :=
    match opt_truthy dtruthy (w_ctl w) with Some _ => true | None => false end.

  (** [if filename:] *)
  Definition named (f : option string) : option string :=
    match f with Some EmptyString | None => None | Some s => Some s end.
  (** with open(filename, 'w') ... json.dump *)
  Definition write_if (f : option string) (c : content T) : st W unit :=
    match named f with Some n => smod (put_file n [c]) | None => sret tt end.

  (** MU.py 147-171: self.solve for a non-empty dictionary *)
  Definition raw_solve : st W (fm T) :=
    fun w =>
      match w_aero w with
      | None => (Err AttributeError, w)                             (* not reached *)
      | Some a =>
          let '(r, a', s') := h_solve H a (w_ctl w) (w_model w) in
          (r, MkW (Some a') (w_ctl w) s' (w_files w) (w_log w ++ [MkCall a (w_ctl w) r s']))
      end.
  (** MU.py 101-190 without filename: self.solve(aero_state, control_state, prop_state) *)
  Definition do_solve : st W (fm T) :=
    fun w => if aero_given w then raw_solve w else with_aero default_aero raw_solve w.

  (** reference quantities: attributes that do not exist without wings *)
  Definition need_refs : st W (refs T) :=
    match h_refs H with Some r => sret r | None => sraise AttributeError end.

  (** MU.py 793 etc.: 0.5*aero_state.get("rho",0.0023769)*(aero_state.get("V_mag",10.)**2)*self.Sw *)
  Definition dynamic_pressure_area : st W T :=
    rho <- get_aero "rho" (ndec 23769 7) ;;
    V <- get_aero "V_mag" (nint 10) ;;
    r <- need_refs ;;
    sret (ndec 5 1 * rho * (V * V) * r_Sw r).

  (** MU.py 802-814 and its copies: the nine coefficients of a difference *)
  Definition nine (suffix : string) (scale : T -> T) (r : refs T) (forw back : fm T) : dict T :=
    [("CL" ++ suffix, scale (FL forw - FL back));
     ("CD" ++ suffix, scale (FD forw - FD back));
     ("CS" ++ suffix, scale (FS forw - FS back));
     ("CX" ++ suffix, scale (FX forw - FX back));
     ("CY" ++ suffix, scale (FY forw - FY back));
     ("CZ" ++ suffix, scale (FZ forw - FZ back));
     ("Cl" ++ suffix, scale (MX forw - MX back) / r_lat r);
     ("Cm" ++ suffix, scale (MY forw - MY back) / r_long r);
     ("Cn" ++ suffix, scale (MZ forw - MZ back) / r_lat r)].

  (** MU.py 798-801, 815: two solves around the entry value of [key] *)
  Definition around_aero (key : string) (x0 d : T) : st W (fm T * fm T) :=
    set_aero key (x0 - d) ;;;
    back <- do_solve ;;
    set_aero key (x0 + d) ;;;
    forw <- do_solve ;;
    sret (forw, back).
  Definition around_ctl (key : string) (x0 d : T) : st W (fm T * fm T) :=
    set_ctl key (x0 - d) ;;;
    back <- do_solve ;;
    set_ctl key (x0 + d) ;;;
    forw <- do_solve ;;
    sret (forw, back).

  (** MU.py 790-832 *)
  Definition stability_body : st W (dict T) :=
    DP <- dynamic_pressure_area ;;
    r <- need_refs ;;
    let delta := ndec 5 1 in
    let scale x := x / n2 / nrad delta / DP in
    a0 <- get_aero "alpha" n0 ;;
    q <- around_aero "alpha" a0 delta ;;
    set_aero "alpha" a0 ;;;
    b0 <- get_aero "beta" n0 ;;
    q' <- around_aero "beta" b0 delta ;;
    set_aero "beta" b0 ;;;
    sret (nine "_a" scale r (fst q) (snd q) ++ nine "_b" scale r (fst q') (snd q'))%list.
  (** MU.py 756-840: stability_derivatives *)
  Definition stability_derivatives : st W (dict T) :=
    fun w => if aero_given w then stability_body w else with_aero default_aero stability_body w.

  (** MU.py 879-941; line 941 restores yaw_rate from q0 *)
  Definition damping_body : st W (dict T) :=
    V <- get_aero "V_mag" (nint 10) ;;
    rho <- get_aero "rho" (ndec 23769 7) ;;
    r <- need_refs ;;
    let DP := ndec 5 1 * rho * V * V * r_Sw r in
    let delta := ndec 5 3 in
    let dp := delta * n2 * V / r_lat r in
    let non_dim := n2 * delta * DP in
    let scale x := x / non_dim in
    p0 <- get_aero "roll_rate" n0 ;;
    qp <- around_aero "roll_rate" p0 dp ;;
    set_aero "roll_rate" p0 ;;;
    let dq := delta * n2 * V / r_long r in
    q0 <- get_aero "pitch_rate" n0 ;;
    qq <- around_aero "pitch_rate" q0 dq ;;
    set_aero "pitch_rate" q0 ;;;
    let dr := delta * n2 * V / r_lat r in
    r0 <- get_aero "yaw_rate" n0 ;;
    qr <- around_aero "yaw_rate" r0 dr ;;
    set_aero "yaw_rate" q0 ;;;
    sret (nine "_pbar" scale r (fst qp) (snd qp) ++ nine "_qbar" scale r (fst qq) (snd qq) ++
          nine "_rbar" scale r (fst qr) (snd qr))%list.
  (** MU.py 842-948: damping_derivatives *)
  Definition damping_derivatives : st W (dict T) :=
    fun w => if aero_given w then damping_body w else with_aero default_aero_2 damping_body w.

  (** MU.py 986-1063 *)
  Definition control_body : st W (dict T) :=
    DP <- dynamic_pressure_area ;;
    r <- need_refs ;;
    let delta := ndec 25 2 in
    let scale x := x / n2 / nrad delta / DP in
    a0 <- get_ctl "aileron" n0 ;;
    qa <- around_ctl "aileron" a0 delta ;;
    set_ctl "aileron" a0 ;;;
    e0 <- get_ctl "elevator" n0 ;;
    qe <- around_ctl "elevator" e0 delta ;;
    set_ctl "elevator" e0 ;;;
    r0 <- get_ctl "rudder" n0 ;;
    qr <- around_ctl "rudder" r0 delta ;;
    set_ctl "rudder" r0 ;;;
    f0 <- get_ctl "flap" n0 ;;
    qf <- around_ctl "flap" f0 delta ;;
    set_ctl "flap" f0 ;;;
    sret (nine "_da" scale r (fst qa) (snd qa) ++ nine "_de" scale r (fst qe) (snd qe) ++
          nine "_dr" scale r (fst qr) (snd qr) ++ nine "_df" scale r (fst qf) (snd qf))%list.
  (** MU.py 952-1072: control_derivatives *)
  Definition control_derivatives : st W (dict T) :=
    fun w => if ctl_given w then control_body w else with_ctl default_ctl control_body w.

  (** MU.py 689-753: derivatives *)
  Definition derivatives (filename : option string) : st W (answer (derivs T)) :=
    r <- match h_refs H with
         | Some _ =>
             stab <- stability_derivatives ;;
             ma <- slift (dlookup stab "Cm_a") ;;
             la <- slift (dlookup stab "CL_a") ;;
             let stab := dset stab "static_margin" (- ma / la) in
             cont <- control_derivatives ;;
             damp <- damping_derivatives ;;
             sret (Answer (MkDer stab cont damp))
         | None =>
             match named filename with
             | Some _ => sret (ErrorRecord "underivable")
             | None => sraise RuntimeError
             end
         end ;;
    write_if filename (match r with Answer d => F_derivs d | ErrorRecord m => F_error m end) ;;;
    sret r.

  (** MU.py 1112-1152: the secant loop of target_lift, run with aero1 as aero_state.
      [iters] counts completed turns; the fuel only makes the recursion structural. *)
  Fixpoint lift_loop (fuel : nat) (target error : T) (filename : option string)
           (x0 y0 x1 y1 : T) (iters : nat) : st W (answer T) :=
    match fuel with
    | 0%nat => sraise OutOfFuel
    | Datatypes.S fuel =>
        (* without wings and propellers all lifts are the integer 0 *)
        if negb (h_parts H) then sraise ZeroDivisionError else
        let x2 := x1 - ((y1 * (x1 - x0)) / (y1 - y0)) in
        if nabs (x2 - x1) <? error then sret (Answer x2) else
        set_aero "alpha" x2 ;;;
        FM <- do_solve ;;
        let y2 := FL FM - target in
        if Nat.ltb 20 (Datatypes.S iters) then
          match named filename with
          | Some _ => sret (ErrorRecord "unliftable")
          | None => sraise RuntimeError
          end
        else lift_loop fuel target error filename x1 y1 x2 y2 (Datatypes.S iters)
    end.
  Definition lift_body (target error : T) (filename : option string) (a : aero_state T)
    : st W (answer T) :=
    x0 <- slift (dlookup (an a) "alpha") ;;
    let x1 := x0 * ndec 15 1 + ndec 1 1 in
    let aero0 := MkAero (dset (an a) "alpha" x0) (als a) in
    let aero1 := MkAero (dset (an a) "alpha" x1) (als a) in
    FM0 <- with_aero aero0 do_solve ;;
    with_aero aero1 (
      FM1 <- do_solve ;;
      lift_loop 22 target error filename x0 (FL FM0 - target) x1 (FL FM1 - target) 0).
  (** MU.py 1074-1171: target_lift.  With the default aero_state the recursive call gets
      neither filename nor error. *)
  Definition default_error : T := ndec 1 9.
  Definition target_lift (target : T) (filename : option string) (error : T) : st W (answer T) :=
    r <- (fun w => match opt_truthy aero_truthy (w_aero w) with
                   | Some a => lift_body target error filename a w
                   | None => with_aero default_aero (lift_body target default_error None default_aero) w
                   end) ;;
    write_if filename (match r with Answer x => F_numbers [("alpha", x)] | ErrorRecord m => F_error m end) ;;;
    sret r.

  (** MU.py 1290-1334: _lift_slope and _moment_slope; [f] picks FL or MY *)
  Definition slope_of (f : fm T -> T) : st W (T * T) :=
    let delta := ndec 25 2 in
    a0 <- get_aero "alpha" n0 ;;
    q <- around_aero "alpha" a0 delta ;;
    set_aero "alpha" a0 ;;;
    e0 <- get_ctl "elevator" n0 ;;
    q' <- around_ctl "elevator" e0 delta ;;
    set_ctl "elevator" e0 ;;;
    sret ((f (fst q) - f (snd q)) / nrad (n2 * delta), (f (fst q') - f (snd q')) / nrad (n2 * delta)).

  Variable E : menv T.

  Definition mat_vec (A : list (list T)) (x : list T) : list T :=
    map (fun row => nsum (map2 nmul row x)) A.
  Definition np_inv (A : list (list T)) : res (list (list T)) :=
    match me_inv E A with Some B => Ok B | None => Err LinAlgError end.

  (** MU.py 1222-1263: the Newton loop of pitch_trim *)
  Fixpoint trim_loop (fuel : nat) (L_target m_target error : T) (filename : option string)
           (a de : T) (iters : nat) : st W (option (T * T)) :=
    match fuel with
    | 0%nat => sraise OutOfFuel
    | Datatypes.S fuel =>
        set_aero "alpha" a ;;;
        set_ctl "elevator" de ;;;
        current <- do_solve ;;
        let F0 := FL current - L_target in
        let F1 := MY current - m_target in
        if (nabs F0 <? error) && (nabs F1 <? error) then
          write_if filename (F_numbers [("alpha", a); ("elevator", de)]) ;;;
          sret (Some (a, de))
        else
        q <- slope_of (@FL T) ;;
        let (L_a, L_de) := q in
        q <- slope_of (@MY T) ;;
        let (m_a, m_de) := q in
        if (L_de =? n0) && (m_de =? n0) then
          match named filename with
          | Some _ => write_if filename (F_error "no_elevator") ;;; sret None
          | None => sraise RuntimeError
          end
        else
        Ji <- slift (np_inv [[L_a; L_de]; [m_a; m_de]]) ;;
        match mat_vec Ji [- F0; - F1] with
        | d0 :: d1 :: _ =>
            let a := a + ndeg d0 in
            let de := de + ndeg d1 in
            if Nat.ltb 100 (Datatypes.S iters) then
              match named filename with
              | Some _ => write_if filename (F_error "untrimmable") ;;; sret None
              | None => sraise RuntimeError
              end
            else trim_loop fuel L_target m_target error filename a de (Datatypes.S iters)
        | _ => sraise IndexError
        end
    end.
  Definition trim_body (L_target m_target error : T) (filename : option string) :=
    trim_loop 102 L_target m_target error filename n0 n0 0.
  (** MU.py 1174-1288: pitch_trim; the recursive calls get neither filename nor error *)
  Definition pitch_trim (L_target m_target : T) (filename : option string) (error : T)
    : st W (option (T * T)) :=
    fun w =>
      match aero_given w, ctl_given w with
      | true, true => trim_body L_target m_target error filename w
      | true, false => with_ctl default_ctl (trim_body L_target m_target default_error None) w
      | false, true => with_aero default_aero_2 (trim_body L_target m_target default_error None) w
      | false, false =>
          with_aero default_aero_2 (with_ctl default_ctl (trim_body L_target m_target default_error None)) w
      end.

  (** MU.py 559-572: the loop of stall_onset *)
  Fixpoint stall_loop (fuel : nat) (a : T) : st W (stall_info T) :=
    match fuel with
    | 0%nat => sraise OutOfFuel
    | Datatypes.S fuel =>
        set_aero "alpha" a ;;;
        results <- do_solve ;;
        s <- sget (@w_model T S) ;;
        info <- slift (h_stalled H s) ;;
        match info with
        | Some (wing, span) => sret (MkStall wing span (me_round2 E a) (FL results) None)
        | None => stall_loop fuel (a + ndec 1 1)
        end
    end.
  Definition onset_body : st W (stall_info T) := stall_loop (me_fuel E) n0.
  (** MU.py 518-591: stall_onset *)
  Definition stall_onset (filename : option string) : st W (answer (stall_info T)) :=
    r <- match h_refs H with
         | Some _ =>
             i <- (fun w => if aero_given w then onset_body w else with_aero default_aero onset_body w) ;;
             sret (Answer i)
         | None =>
             match named filename with
             | Some _ => sret (ErrorRecord "unstallable")
             | None => sraise RuntimeError
             end
         end ;;
    write_if filename (match r with Answer i => F_stall i | ErrorRecord m => F_error m end) ;;;
    sret r.

  (** MU.py 655-672: the secant loop of stall_airspeed, run with aero1 as aero_state.
      The calls of stall_onset always have a non-empty aero_state, wings and no filename. *)
  Fixpoint airspeed_loop (fuel : nat) (weight error : T) (x0 y0 x1 y1 : T) (info : stall_info T)
    : st W (stall_info T) :=
    match fuel with
    | 0%nat => sraise OutOfFuel
    | Datatypes.S fuel =>
        let x2 := x1 - ((y1 * (x1 - x0)) / (y1 - y0)) in
        if nabs (x2 - x1) <? error then
          sret (MkStall (si_wing info) (si_span info) (si_alpha info) (si_lift info) (Some x2))
        else
        set_aero "V_mag" x2 ;;;
        info <- onset_body ;;
        airspeed_loop fuel weight error x1 y1 x2 (si_lift info - weight) info
    end.
  Definition airspeed_body (weight error : T) (a : aero_state T) : st W (stall_info T) :=
    x0 <- slift (dlookup (an a) "V_mag") ;;
    let x1 := x0 * ndec 15 1 + ndec 1 1 in
    let aero0 := MkAero (dset (an a) "V_mag" x0) (als a) in
    let aero1 := MkAero (dset (an a) "V_mag" x1) (als a) in
    info0 <- with_aero aero0 onset_body ;;
    with_aero aero1 (
      info1 <- onset_body ;;
      airspeed_loop (me_fuel E) weight error x0 (si_lift info0 - weight) x1 (si_lift info1 - weight) info1).
  (** MU.py 593-687: stall_airspeed.  The recursive call for a missing aero_state passes
      self twice, so its aero_state is the number [weight], which has no copy method
      (AttributeError), or, when weight is 0, the MachUp object (the same). *)
  Definition stall_airspeed (weight : T) (filename : option string) (error : T)
    : st W (answer (stall_info T)) :=
    r <- match h_refs H with
         | Some _ =>
             i <- (fun w => match opt_truthy aero_truthy (w_aero w) with
                            | Some a => airspeed_body weight error a w
                            | None => (Err AttributeError, w)
                            end) ;;
             sret (Answer i)
         | None =>
             match named filename with
             | Some _ => sret (ErrorRecord "unstallable")
             | None => sraise RuntimeError
             end
         end ;;
    write_if filename (match r with Answer i => F_stall i | ErrorRecord m => F_error m end) ;;;
    sret r.

  (** *** find_aero_center *)
  (** MU.py 422-428: the sweep over the angles, collecting normal and axial force and moment *)
  Fixpoint sweep (angles : list T) : st W (list (T * T * T)) :=
    match angles with
    | [] => sret []
    | x :: r =>
        set_aero "alpha" x ;;;
        FM <- do_solve ;;
        l <- sweep r ;;
        sret ((- FZ FM, - FX FM, MY FM) :: l)
    end.
  (** MU.py 421: np.arange(-10,10,0.05) *)
  Definition sweep_angles : list T := map (fun i => nint (-10) + nnat i * ndec 5 2) (seq 0 400).

  Definition dot (l m : list T) : T := nsum (map2 nmul l m).
  Definition times (l m : list T) : list T := map2 nmul l m.

  (** MU.py 444-454: zero-lift angle and lift slope *)
  Definition lift_fit (sa ca CL : list T) : T * T :=
    let sCLca := dot CL ca in
    let ss2a := dot sa sa in
    let sCLsa := dot CL sa in
    let ssaca := dot sa ca in
    let sc2a := dot ca ca in
    let aL0 := natan ((sCLca * ss2a - sCLsa * ssaca) / (sCLca * ssaca - sCLsa * sc2a)) in
    let ta0 := ntan aL0 in
    let d := map2 (fun s c => s - ta0 * c) sa ca in
    (aL0, dot CL d / dot d d).

  (** MU.py 456-471: parabola through the drag polar *)
  Definition drag_fit (CL CD : list T) : res (T * T * T) :=
    let sCL := nsum CL in
    let sCL2 := dot CL CL in
    let sCL3 := dot (times CL CL) CL in
    let sCL4 := dot (times (times CL CL) CL) CL in
    let sCD := nsum CD in
    let sCDCL := dot CD CL in
    let sCDCL2 := dot (times CD CL) CL in
    rlet B := np_inv [[nnat (List.length CL); sCL; sCL2]; [sCL; sCL2; sCL3]; [sCL2; sCL3; sCL4]] in
    match mat_vec B [sCD; sCDCL; sCDCL2] with
    | [c0; c1; c2] => Ok (c0, c1, c2)
    | _ => Err ValueError
    end.

  (** MU.py 473-491: moment as a combination of sin(2 alpha), CN and CA *)
  Definition moment_fit (s2a CN CA Cm : list T) : res (T * T * T) :=
    rlet B := np_inv [[dot s2a s2a; dot s2a CN; dot s2a CA];
                      [dot s2a CN; dot CN CN; dot CN CA];
                      [dot s2a CA; dot CN CA; dot CA CA]] in
    match mat_vec B [dot Cm s2a; dot Cm CN; dot Cm CA] with
    | [c0; c1; c2] => Ok (c0, c1, c2)
    | _ => Err ValueError
    end.

  (** MU.py 495-496 *)
  Definition ac_x (long alphao CL0_a CD0 CD0_L2 Cm0_a Cm_N : T) : T :=
    - long * (- ((nint 4 + (n2 * CD0 / CL0_a) + (nint 12 * alphao * alphao - nint 4) * CD0_L2 * CL0_a)
                 / (n2 * CL0_a + nint 3 * CD0 - n2 * CD0_L2 * CL0_a * CL0_a)) * Cm0_a - Cm_N).
  Definition ac_z (long alphao aL0 CL0_a CD0 CD0_L CD0_L2 Cm0_a Cm_A : T) : T :=
    - long * (((nint 4 * aL0 + nint 4 * CD0_L + nint 12 * alphao * CD0_L2 * CL0_a)
               / (n2 * CL0_a + nint 3 * CD0 - n2 * CD0_L2 * CL0_a * CL0_a)) * Cm0_a + Cm_A).

  (** MU.py 416-499 *)
  Definition center_body : st W (vec3 T) :=
    ao <- get_aero "alpha" n0 ;;
    DP <- dynamic_pressure_area ;;
    l <- sweep sweep_angles ;;
    r <- need_refs ;;
    let alpha := map nrad sweep_angles in
    let CN := map (fun q => fst (fst q) / DP) l in
    let CA := map (fun q => snd (fst q) / DP) l in
    let Cm := map (fun q => snd q / DP / r_long r) l in
    let ca := map ncos alpha in
    let sa := map nsin alpha in
    let CL := map2 nsub (times CN ca) (times CA sa) in
    let CD := map2 nadd (times CA ca) (times CN sa) in
    let (aL0, CL0_a) := lift_fit sa ca CL in
    q <- slift (drag_fit CL CD) ;;
    let '(CD0, CD0_L, CD0_L2) := q in
    let s2a := map (fun x => nsin (n2 * x)) alpha in
    q <- slift (moment_fit s2a CN CA Cm) ;;
    let '(Cm0_a, Cm_N, Cm_A) := q in
    let alphao := nrad ao in
    sret (V3 (ac_x (r_long r) alphao CL0_a CD0 CD0_L2 Cm0_a Cm_N + vx (h_cg H)) n0
             (ac_z (r_long r) alphao aL0 CL0_a CD0 CD0_L CD0_L2 Cm0_a Cm_A + vz (h_cg H))).
  (** MU.py 374-515: find_aero_center *)
  Definition find_aero_center (filename : option string) : st W (vec3 T) :=
    r <- (fun w => if aero_given w then center_body w else with_aero default_aero center_body w) ;;
    write_if filename (F_numbers [("x_ac", vx r); ("z_ac", vz r)]) ;;;
    sret r.
End Analysis.

(** ** Functions that need the parts of the model, not only its solve *)
Section Whole.
  Context {T : Type} {N : num_ops T}.
  Variable E : menv T.
  Variable X : machup T.
  Variable ps : option (dict (pval T)).
  Local Open Scope string_scope.
  Local Open Scope num_scope.
  Notation W := (world T (mstate T)).

  (** MU.py 101-190: MachUp.solve.  With a filename and no aero_state the names
      wing_results and prop_results are unbound when the file is to be written. *)
  Definition mu_solve (filename : option string) : st W (fm T) :=
    fun w =>
      match opt_truthy aero_truthy (w_aero w) with
      | Some a =>
          let '(r, a', s') := solve_parts E X ps a (w_ctl w) (w_model w) in
          let total := rlet q := r in Ok (snd q) in
          let w' := MkW (Some a') (w_ctl w) s' (w_files w)
                        (w_log w ++ [MkCall a (w_ctl w) total s']) in
          match r with
          | Err e => (Err e, w')
          | Ok (wing, prop, tot) => (write_if filename (F_solve wing prop tot) ;;; sret tot) w'
          end
      | None =>
          (r <- do_solve (host_of E X ps) ;;
           match named filename with
           | Some _ => sraise UnboundLocalError
           | None => sret r
           end) w
      end.

  (** MU.py 147-190 with the dictionary objects: [hp] holds the result dictionaries created
      so far, an object is named by its position.  The object returned is the one created
      by [total_results = {}] (line 150) of this call, or of the recursive call when
      aero_state is missing; lines 162-172 fill it.  When the call raises, the object that
      nobody holds is left empty (a simplification). *)
  Definition total_entries (f : fm T) : dict T :=
    [("FL", FL f); ("FD", FD f); ("FS", FS f); ("FX", FX f); ("FY", FY f); ("FZ", FZ f);
     ("MX", MX f); ("MY", MY f); ("MZ", MZ f)].
  Fixpoint store (hp : list (dict T)) (p : nat) (key : string) (x : T) : list (dict T) :=
    match hp, p with
    | [], _ => []
    | d :: hp, 0%nat => dset d key x :: hp
    | d :: hp, Datatypes.S p => d :: store hp p key x
    end.
  Definition solve_obj (filename : option string) (q : W * list (dict T))
    : res nat * (W * list (dict T)) :=
    let (w, hp) := q in
    let p := List.length hp in
    let hp := (hp ++ [[]])%list in
    match mu_solve filename w with
    | (Ok f, w') => (Ok p, (w', fold_left (fun hp e => store hp p (fst e) (snd e)) (total_entries f) hp))
    | (Err e, w') => (Err e, (w', hp))
    end.

  (** MU.py 270: one row of wing_distributions *)
  Definition wing_rows (g : grid T) (r : refs T) (s : ll_state T) : res (list (wing_row T)) :=
    rlet rows := ll_distributions g s in
    Ok (map (fun d => MkWRow d (d_cl d * d_chord d / r_long r)) rows).
  (** MU.py 286-304, 351: the name column of the text file has 18 characters *)
  Definition cut18 (s : string) : string := substring 0 18 s.
  Definition file_row (r : wing_row T) : wing_row T :=
    let d := wr_row r in
    MkWRow (MkDist (cut18 (d_name d)) (d_cp d) (d_chord d) (d_twist d) (d_dihedral d) (d_sweep d)
                   (d_area d) (d_alpha d) (d_force d) (d_cl d) (d_cm d) (d_cd d) (d_al0 d)) (wr_cl_ref r).
  Definition file_blade (b : @blade_row T) : @blade_row T :=
    MkBlade (cut18 (b_name b)) (b_r b) (b_chord b) (b_pitch b) (b_advance b) (b_induced b) (b_alpha b)
            (b_cl b) (b_cd b) (b_Vi b) (b_Vx b) (b_Vt b).

  Definition ends_json (f : string) : bool :=
    String.eqb (substring (String.length f - 4) 4 f) "json".
  Definition file_of (files : dict (list (content T))) (f : string) : list (content T) :=
    dgetd files f [].

  (** MU.py 216-372: distributions.  Wing rows replace the file (np.savetxt), propeller rows
      are appended to it (open 'ab').  The file opened for appending is never closed: what is
      still in its buffer reaches the file when the function returns.  That matters for a name
      ending in "json", whose file is read back and rewritten before: [flushed] is the number
      of propeller rows that have left the buffer by then.  (Simplified: the buffer holds
      whole rows, and the header goes with the first of them; without wings and propellers the
      "json" branch of Python raises unless the file exists.) *)
  Definition distributions (flushed : nat) (filename : option string)
    : st W (list (wing_row T) * list (@blade_row T)) :=
    do_solve (host_of E X ps) ;;;
    m <- sget (@w_model T (mstate T)) ;;
    wings <- match mm_grid X, mm_refs X with
             | Some g, Some r => slift (wing_rows g r (m_ll m))
             | _, _ => sret []
             end ;;
    blades <- (fun w =>
                 let m := w_model w in
                 match mm_props X with
                 | [] => (Ok [], w)
                 | gs => (Ok (prop_distributions gs (m_ps m)),
                          (* pm._find_Vi() updates the propellers *)
                          MkW (w_aero w) (w_ctl w)
                              (MkM (m_ll m) (map2 (fun g s => find_Vi (pg_stations g) s) gs (m_ps m)))
                              (w_files w) (w_log w))
                 end) ;;
    match named filename with
    | None => sret tt
    | Some f =>
        match mm_grid X with
        | Some _ => smod (put_file f [F_wings (map file_row wings)])
        | None => sret tt
        end ;;;
        match mm_props X with
        | [] => if ends_json f then smod (fun w => put_file f [F_wrapped (file_of (w_files w) f)] w) else sret tt
        | _ =>
            if ends_json f then
              smod (fun w => put_file f
                [F_wrapped (file_of (w_files w) f ++ [F_blades (map file_blade (firstn flushed blades))])%list;
                 F_blades (map file_blade (skipn flushed blades))] w)
            else
              smod (fun w => put_file f (file_of (w_files w) f ++ [F_blades (map file_blade blades)])%list w)
        end
    end ;;;
    sret (wings, blades).
End Whole.
