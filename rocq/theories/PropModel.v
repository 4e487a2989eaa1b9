(** Model of /repo/machup/propmodel.py (the parts listed in DESIGN.md: set-up,
    operating state, blade-element solve, forces, slipstream on the wings) and of
    /repo/machup/propssolver.py. *)
From Coq Require Import ZArith String Bool Arith List.
From Verif Require Import Base Num Geometry Grid LLModel.
Import ListNotations.
Set Implicit Arguments.

(** A value in a [prop_state] dictionary: a number or a nested dictionary (the
    state of one propeller under its name). *)
Inductive pval (T : Type) : Type :=
| PNum (x : T)
| PDict (d : list (string * pval T)).
Arguments PNum {T} x.
Arguments PDict {T} d.

(** One radial station: an index of the arrays _zeta, _r, _alpha_L0, _CL_alpha,
    _CL_max, _CD_0, _CD_L, _CD_L2, _beta, _cb. *)
Record station (T : Type) : Type := MkSt {
  z_zeta : T; z_r : T;
  z_al0 : T; z_cla : T; z_clmax : T;
  z_cd0 : T; z_cdl : T; z_cdl2 : T;
  z_beta : T; z_cb : T
}.

(** Airfoil coefficients at one station (lines 62-161). *)
Record pcoef (T : Type) : Type := MkPC {
  k_al0 : T; k_cla : T; k_clmax : T; k_cd0 : T; k_cdl : T; k_cdl2 : T
}.

(** Lines 227-237: electric motor and battery. *)
Record motor (T : Type) : Type := MkMotor {
  mo_kv : T; mo_rm : T; mo_io : T; mo_gr : T; mo_rb : T; mo_eo : T; mo_rc : T
}.

(** Lines 283-294: a wing control point seen from the propeller. *)
Record wpoint (T : Type) : Type := MkWP {
  wp_t : T;                                    (* _t *)
  wp_dist : T;                                 (* _center2point_dist *)
  wp_tangent : vec3 T;                         (* _tangent_norm *)
  wp_in : bool                                 (* index occurs in _points_in_stream *)
}.

(** The attributes of a [PropModel] that never change after __init__. *)
Record pgeom (T : Type) : Type := MkPG {
  pg_name : string;
  pg_pos : vec3 T;
  pg_d : T; pg_hd : T;
  pg_theta : T; pg_gamma : T;
  pg_forward : vec3 T;
  pg_rot : T;
  pg_stations : list (station T);
  pg_k : nat;
  pg_motor : option (motor T);
  pg_wing : option (list (wpoint T));
  pg_units : option string
}.

(** The attributes of a [PropModel] that change.  Attributes that do not exist
    before their first assignment have arbitrary initial values here; the code
    assigns each of them before reading it.  [p_clock] counts the calls of
    [np.empty_like], see [pe_mem]. *)
Record pstate (T : Type) : Type := MkPS {
  p_clock : nat;
  p_ei : list T;
  p_n : T;                                     (* _rot_per_sec *)
  p_J : T;
  p_power : option T;                          (* _solve_from_power and _brake_power *)
  p_throttle : option T;                       (* _solve_from_motor and _throttle *)
  p_v : vec3 T; p_rho : T; p_Vinf : T;
  p_einf : list T; p_alpha : list T; p_CL : list T; p_CD : list T;
  p_CT : T; p_Cl : T; p_CNa : T; p_Cna : T; p_CP : T; p_eff : T;
  p_Vi : list T; p_Vxi : list T; p_Vti : list T;
  p_T : T; p_l : T; p_F : vec3 T; p_M : vec3 T
}.

(** What the model takes from outside the code: the cubic interpolant of a data
    file (np.loadtxt and scipy interp1d), scipy's [simps], the content of memory
    returned by [np.empty_like] (per propeller name, allocation number and index),
    and the number of loop iterations allowed before an execution counts as not
    terminated. *)
Record penv (T : Type) : Type := MkPE {
  pe_table : string -> res (T -> T);
  pe_simps : list T -> list T -> T;
  pe_mem : string -> nat -> nat -> T;
  pe_fuel : nat
}.

(** One radial station during the iteration for the induced angle. *)
Record estep (T : Type) : Type := MkE {
  e_st : station T; e_inf : T;
  e_x0 : T; e_x1 : T; e_x2 : T; e_y0 : T; e_y1 : T
}.

Section PropModel.
  Context {T : Type} {N : num_ops T}.
  Local Open Scope num_scope.
  Notation pyval := (pyval T).
  Notation kwargs := (dict pyval).
  Local Open Scope string_scope.
  Local Open Scope num_scope.

  Definition last_of {A} (l : list A) : option A := nth_error l (pred (List.length l)).

  (** *** Geometry *)

  (** np.linspace(a, b, n)[i] *)
  Definition linspace (a b : T) (n i : nat) : T :=
    if Nat.leb n 1 then a
    else if Nat.eqb (S i) n then b
    else nnat i * ((b - a) / nnat (pred n)) + a.

  (** lines 45-50: _calc_spacing *)
  Definition zetas (p : prop T) : res (list T) :=
    if pr_diameter p =? n0 then Err ZeroDivisionError
    else Ok (map (linspace (pr_hub p / pr_diameter p) (ndec 999 3) (pr_nodes p)) (seq 0 (pr_nodes p))).
  Definition radius (d zeta : T) : T := zeta * d * ndec 5 1.

  (** lines 52-58: _calc_orientation *)
  Definition forward_of (theta gamma : T) : vec3 T :=
    V3 (ncos theta * ncos gamma) (ncos theta * nsin gamma) (- nsin theta).

  (** scipy interp1d (linear) and np.interp on increasing abscissae [xs]: [lo] to
      the left of the first, [hi] to the right of the last one *)
  Fixpoint interp_from (x0 y0 : T) (pts : list (T * T)) (hi x : T) : T :=
    match pts with
    | [] => if x0 <? x then hi else y0
    | (x1, y1) :: r =>
        if x <=? x1 then (y1 - y0) / (x1 - x0) * (x - x0) + y0
        else interp_from x1 y1 r hi x
    end.
  Definition interpolate (lo hi : T) (pts : list (T * T)) (x : T) : T :=
    match pts with
    | [] => lo
    | (x0, y0) :: r => if x <? x0 then lo else interp_from x0 y0 r hi x
    end.
  (** interp1d with fill_value = (first, last) *)
  Definition interp_clamped (pts : list (T * T)) (x : T) : T :=
    match pts, last_of pts with
    | (_, y0) :: _, Some (_, yl) => interpolate y0 yl pts x
    | _, _ => n0
    end.

  Definition coef_of (a : airfoil T) : pcoef T :=
    MkPC (af_alpha_L0 a) (af_CL_alpha a) (af_CL_max a) (af_CD_0 a) (af_CD_L a) (af_CD_L2 a).

  Definition is_root (v : pyval) : bool := peq_str v "root" || peq_str v "Root" || peq_str v "ROOT".
  Definition is_tip (v : pyval) : bool := peq_str v "tip" || peq_str v "Tip" || peq_str v "TIP".

  (** lines 97-109: span position of an airfoil among several *)
  Definition span_of (zs : list T) (a : airfoil T) : res (T * airfoil T) :=
    match af_span_position a with
    | VNone => Err RuntimeError
    | v =>
        if is_root v then match zs with z :: _ => Ok (z, a) | [] => Err IndexError end
        else if is_tip v then match last_of zs with Some z => Ok (z, a) | None => Err IndexError end
        else rlet x := pnum v in Ok (x, a)
    end.
  (** line 111: sorted(span_wise_list).  Two equal positions make Python compare
      the airfoil objects: TypeError. *)
  Fixpoint insert_span (p : T * airfoil T) (l : list (T * airfoil T)) : res (list (T * airfoil T)) :=
    match l with
    | [] => Ok [p]
    | q :: r =>
        if fst p =? fst q then Err TypeError
        else if fst p <? fst q then Ok (p :: l)
        else rlet r' := insert_span p r in Ok (q :: r')
    end.
  Fixpoint sort_span (l : list (T * airfoil T)) : res (list (T * airfoil T)) :=
    match l with
    | [] => Ok []
    | p :: r => rlet r' := sort_span r in insert_span p r'
    end.

  (** lines 63-162: _calc_coefficients, as a function of the relative radius.
      Simplification: a propeller without airfoils gets the default NACA2412 also
      in the Prop object (line 80), which is not recorded here. *)
  Definition coefficients (p : prop T) (zs : list T) : res (T -> pcoef T) :=
    match map snd (pr_airfoils p) with
    | [] => Ok (fun _ => coef_of (default_airfoil "NACA2412"))
    | [a] => Ok (fun _ => coef_of a)
    | afs =>
        rlet l := rmap (span_of zs) afs in
        rlet l := sort_span l in
        let pts (f : pcoef T -> T) := map (fun q => (fst q, f (coef_of (snd q)))) l in
        Ok (fun z =>
          MkPC (interp_clamped (pts (@k_al0 T)) z) (interp_clamped (pts (@k_cla T)) z)
               (interp_clamped (pts (@k_clmax T)) z) (interp_clamped (pts (@k_cd0 T)) z)
               (interp_clamped (pts (@k_cdl T)) z) (interp_clamped (pts (@k_cdl2 T)) z))
    end.

  (** lines 190-192: chord-line pitch to aerodynamic pitch, pitch-to-diameter Kc *)
  Definition aero_beta (Kc zeta al0 : T) : T :=
    let pz := npi * zeta in
    let K := pz * ((Kc - pz * ntan al0) / (pz + Kc * ntan al0)) in
    natan2 K pz.
  (** lines 173-181: pitch given as an angle at each radius *)
  Definition aero_beta_angle (beta_c r al0 : T) : T :=
    let c := n2 * npi * r in
    let l_c := c * ntan beta_c in
    let l := c * (l_c - c * ntan al0) / (c + l_c * ntan al0) in
    natan (l / c).

  (** lines 164-195: _calc_pitch, as a function of relative radius, radius and
      zero-lift angle *)
  Definition pitch (E : penv T) (p : prop T) : res (T -> T -> T -> T) :=
    let info := pr_pitch p in
    rlet inc := (match dget info "pitch_increment" with
                 | Some v => if ptruthy v then rlet x := pnum v in Ok (Some (nrad x)) else Ok None
                 | None => Ok None
                 end) in
    let add (b : T) := match inc with Some i => b + i | None => b end in
    rlet ty := dlookup info "type" in
    let by_ratio Kc := Ok (fun z r al0 => add (aero_beta Kc z al0)) in
    if peq_str ty "default" then by_ratio (ndec 5 1)
    else if peq_str ty "from_file" then
      rlet f := (rlet v := dlookup info "filename" in rlet s := pstr v in pe_table E s) in
      Ok (fun z r al0 => add (aero_beta_angle (nrad (f z)) r al0))
    else if peq_str ty "ratio" then rlet v := dlookup info "value" in rlet Kc := pnum v in by_ratio Kc
    else if peq_str ty "value" then
      rlet v := dlookup info "value" in rlet x := pnum v in by_ratio (x / pr_diameter p)
    else Err RuntimeError.

  (** lines 1538-1541: _linearInterp over the radial stations *)
  Definition linear_interp (left right first last x : T) : T :=
    left + (x - first) * ((right - left) / (last - first)).

  (** lines 197-218: _calc_chord, as a function of the relative radius *)
  Definition chord (E : penv T) (p : prop T) (zs : list T) : res (T -> T) :=
    let info := pr_chord p in
    let d := pr_diameter p in
    let ellipse z := nsqrt (n1 - z * z) in
    rlet ty := dlookup info "type" in
    if peq_str ty "default" then Ok (fun z => ndec 75 3 * d * ellipse z)
    else if peq_str ty "from_file" then
      rlet f := (rlet v := dlookup info "filename" in rlet s := pstr v in pe_table E s) in
      Ok (fun z => f z * d / n2)
    else if peq_str ty "linear" then
      rlet v := dlookup info "root" in
      rlet root := pnum v in
      rlet tip := pnum (dgetd info "tip" v) in
      match zs, last_of zs with
      | z0 :: _, Some zl => Ok (linear_interp root tip z0 zl)
      | _, _ => Err IndexError
      end
    else if peq_str ty "elliptical" then
      rlet v := dlookup info "root" in rlet root := pnum v in Ok (fun z => root * ellipse z)
    else Err RuntimeError.

  (** lines 227-237: _calc_motor *)
  Definition make_motor (p : prop T) : res (option (motor T)) :=
    let info := pr_motor p in
    if ptruthy (dgetd info "has_motor" (VBool false)) then
      let num k := rlet v := dlookup info k in pnum v in
      rlet kv := num "motor_kv" in
      rlet rm := num "motor_resistance" in
      rlet io := num "motor_no_load_current" in
      rlet gr := num "gear_reduction" in
      rlet rb := num "battery_resistance" in
      rlet eo := num "battery_voltage" in
      rlet rc := num "speed_control_resistance" in
      Ok (Some (MkMotor kv rm io gr rb eo rc))
    else Ok None.

  (** lines 283-294: _calc_immersed_wing_points, one control point.  A point on the
      propeller axis has no tangential direction (numpy: nan). *)
  Definition wing_point (pos forward : vec3 T) (d : T) (pt : vec3 T) : wpoint T :=
    let t := vdot (vsub pt pos) forward in
    let P := vadd pos (vscale t forward) in
    let c2p := vsub pt P in
    let dist := vnorm c2p in
    let tangent := vcross forward c2p in
    MkWP t dist (vdivs tangent (vnorm tangent)) ((nabs dist <=? d / n2) && (t <? n0)).

  Definition make_station (d : T) (c : T -> pcoef T) (b : T -> T -> T -> T) (cb : T -> T) (z : T)
    : station T :=
    let r := radius d z in
    let k := c z in
    MkSt z r (k_al0 k) (k_cla k) (k_clmax k) (k_cd0 k) (k_cdl k) (k_cdl2 k)
         (b z r (k_al0 k)) (cb z).

  (** lines 24-41: PropModel.__init__.  The centre of gravity is the airplane's own
      array and is read at each solve, so it is not part of the constant data. *)
  Definition make_pgeom (E : penv T) (units : option string) (wing_points : option (list (vec3 T)))
             (p : prop T) : res (pgeom T) :=
    rlet zs := zetas p in
    let theta := nrad (pr_elevation p) in
    let gamma := nrad (pr_heading p) in
    let fwd := forward_of theta gamma in
    rlet c := coefficients p zs in
    rlet b := pitch E p in
    rlet cb := chord E p zs in
    rlet m := make_motor p in
    Ok (MkPG (pr_name p) (pr_position p) (pr_diameter p) (pr_hub p) theta gamma fwd
             (rot_dir (pr_rot_dir p)) (map (make_station (pr_diameter p) c b cb) zs) (pr_blades p) m
             (match wing_points with
              | Some pts => Some (map (wing_point (pr_position p) fwd (pr_diameter p)) pts)
              | None => None
              end) units).

  Definition slip_dir (g : pgeom T) : vec3 T := vopp (pg_forward g).

  (** lines 296-299: _init_speed_vars *)
  Definition init_pstate (g : pgeom T) : pstate T :=
    MkPS 0 (repeat n0 (List.length (pg_stations g))) (nint 15) n0 None None vzero n0 n0
         [] [] [] [] n0 n0 n0 n0 n0 n0 [] [] [] n0 n0 vzero vzero.

  (** *** Blade sections *)

  Definition a_stall (s : station T) : T := z_clmax s / z_cla s.
  (** lines 221-223 *)
  Definition chatb (k : nat) (d : T) (s : station T) : T := nnat k * z_cb s / d.
  (** lines 239-281: _calc_stall_delay *)
  Definition delay (s : station T) : T :=
    let c_r := z_cb s / z_r s in
    let K := npow (ndec 1517 4 / c_r) (n1 / ndec 1084 3) in
    let sep := K * c_r / ndec 136 3 in
    a_stall s * (sep - n1).
  Definition a_stall_neg (s : station T) : T := a_stall s + ndec 15 1 * z_al0 s.
  Definition clmax_neg (s : station T) : T := a_stall_neg s * z_cla s.
  Definition delay_stall (s : station T) : T := a_stall s + delay s.
  Definition delay_stall_neg (s : station T) : T := - a_stall s + delay s.
  Definition CDm : T := ndec 111 2 + ndec 18 3 * nint 10.
  Definition cd_polar (s : station T) (cl : T) : T := z_cd0 s + z_cdl s * cl + z_cdl2 s * cl * cl.
  Definition A1 : T := CDm / n2.
  Definition A2 (s : station T) : T :=
    let sas := nsin (a_stall s) in let cas := ncos (a_stall s) in
    (z_clmax s - CDm * sas * cas) * sas / (cas * cas).
  Definition A2_neg (s : station T) : T :=
    let sas := nsin (a_stall_neg s) in let cas := ncos (a_stall_neg s) in
    (clmax_neg s - CDm * sas * cas) * sas / (cas * cas).
  Definition B2 (s : station T) : T :=
    let a := delay_stall s in
    (cd_polar s (a * z_cla s) - CDm * nsin a * nsin a) / ncos a.
  Definition B2_neg (s : station T) : T :=
    let a := - delay_stall_neg s in
    (cd_polar s (delay_stall_neg s * z_cla s) - CDm * nsin a * nsin a) / ncos a.

  (** lines 1285-1300: blend of linear and Viterna lift at the shifted angle [x] *)
  Definition blended (s : station T) (x a2 stall : T) : T :=
    let viterna := A1 * nsin (n2 * x) + a2 * ncos x * ncos x / nsin x in
    let linear := z_cla s * x in
    let step := ntanh (ndeg (x - stall)) / n2 + ndec 5 1 in
    if x <? nrad n2 then linear else (n1 - step) * linear + step * viterna.
  (** lines 1271-1300: _get_CL at one station; None: the entry is not assigned *)
  Definition cl_at (s : station T) (alpha : T) : option T :=
    if alpha <? n0 then
      Some (- blended s (- alpha - delay s) (A2_neg s) (a_stall_neg s) - z_cla s * delay s)
    else if n0 <? alpha then
      Some (blended s (alpha - delay s) (A2 s) (a_stall s) + z_cla s * delay s)
    else None.
  (** lines 1306-1317: _CD_Viterna at one station; None: the entry is not assigned *)
  Definition cd_at (s : station T) (cl alpha : T) : option T :=
    if alpha <? delay_stall_neg s then
      Some (CDm * nsin (- alpha) * nsin (- alpha) + B2_neg s * ncos (- alpha))
    else if delay_stall s <? alpha then
      Some (CDm * nsin alpha * nsin alpha + B2 s * ncos alpha)
    else if (alpha <? delay_stall s) && (delay_stall_neg s <? alpha) then
      Some (cd_polar s cl)
    else None.
  (** np.empty_like followed by partial assignment: what was never written has the
      previous content of the memory *)
  Definition filled (mem : nat -> T) (l : list (option T)) : list T :=
    mapi (fun i o => match o with Some x => x | None => mem i end) l.
  Definition get_CL (mem : nat -> T) (ss : list (station T)) (alphas : list T) : list T :=
    filled mem (map2 cl_at ss alphas).
  Definition get_CD (mem : nat -> T) (ss : list (station T)) (cls alphas : list T) : list T :=
    filled mem (map2 (fun f a => f a) (map2 cd_at ss cls) alphas).

  (** *** Operating state *)

  Definition set_flow_p (v : vec3 T) (rho V : T) (s : pstate T) : pstate T :=
    MkPS (p_clock s) (p_ei s) (p_n s) (p_J s) (p_power s) (p_throttle s) v rho V
         (p_einf s) (p_alpha s) (p_CL s) (p_CD s) (p_CT s) (p_Cl s) (p_CNa s) (p_Cna s) (p_CP s)
         (p_eff s) (p_Vi s) (p_Vxi s) (p_Vti s) (p_T s) (p_l s) (p_F s) (p_M s).
  Definition set_op (n J : T) (pw th : option T) (s : pstate T) : pstate T :=
    MkPS (p_clock s) (p_ei s) n J pw th (p_v s) (p_rho s) (p_Vinf s)
         (p_einf s) (p_alpha s) (p_CL s) (p_CD s) (p_CT s) (p_Cl s) (p_CNa s) (p_Cna s) (p_CP s)
         (p_eff s) (p_Vi s) (p_Vxi s) (p_Vti s) (p_T s) (p_l s) (p_F s) (p_M s).

  (** lines 311-337: _set_aero_state *)
  Definition p_set_aero (aero : option (aero_state T)) : st (pstate T) unit :=
    match opt_truthy aero_truthy aero with
    | Some a =>
        let v := freestream n1 (dgetd (an a) "alpha" n0) (dgetd (an a) "beta" n0) in
        match dget (an a) "V_mag", dget (an a) "rho" with
        | Some V, Some rho => smod (set_flow_p v rho V)
        | _, _ => smod (fun s => set_flow_p v (p_rho s) (p_Vinf s) s) ;;; sraise RuntimeError
        end
    | None => smod (set_flow_p (V3 (nint (-1)) n0 n0) (ndec 23769 7) (nint 10))
    end.

  (** a value used as a number *)
  Definition vnum (v : pval T) : res T := match v with PNum x => Ok x | PDict _ => Err TypeError end.

  (** division of Python floats *)
  Definition pydiv (a b : T) : res T := if b =? n0 then Err ZeroDivisionError else Ok (a / b).

  Definition default_op (d : T) : st (pstate T) unit :=
    V <- sget (@p_Vinf T) ;;
    n <- slift (pydiv V (d * ndec 5 1)) ;;
    smod (set_op n (ndec 5 1) None None).

  (** lines 341-373: _set_prop_state.  Simplification: a dictionary where a number
      is expected is a TypeError at once. *)
  Definition p_set_prop (d : T) (local : option (pval T)) : st (pstate T) unit :=
    match local with
    | None => default_op d
    | Some (PNum x) =>
        if ntruthy x
        then smod (fun s => set_op (p_n s) (p_J s) None None s) ;;; sraise TypeError
        else default_op d
    | Some (PDict []) => default_op d
    | Some (PDict l) =>
        smod (fun s => set_op (p_n s) (p_J s) None None s) ;;;
        match dget l "J", dget l "rot_per_sec", dget l "brake_power", dget l "electric_throttle" with
        | Some vJ, on, _, _ =>
            J <- slift (vnum vJ) ;;
            smod (fun s => set_op (p_n s) J None None s) ;;;
            V <- sget (@p_Vinf T) ;;
            if (J =? n0) || (V =? n0) then
              match on with
              | Some vn => n <- slift (vnum vn) ;; smod (fun s => set_op n J None None s)
              | None => sraise RuntimeError
              end
            else
              n <- slift (pydiv V (d * J)) ;;
              smod (fun s => set_op n J None None s)
        | None, Some vn, _, _ =>
            n <- slift (vnum vn) ;;
            smod (fun s => set_op n (p_J s) None None s) ;;;
            V <- sget (@p_Vinf T) ;;
            J <- slift (pydiv V (n * d)) ;;
            smod (fun s => set_op n J None None s)
        | None, None, Some vp, _ =>
            pw <- slift (vnum vp) ;;
            smod (fun s => set_op (p_n s) (p_J s) (Some pw) None s)
        | None, None, None, Some vt =>
            th <- slift (vnum vt) ;;
            smod (fun s => set_op (p_n s) (p_J s) (p_power s) (Some th) s)
        | None, None, None, None => sraise RuntimeError
        end
    end.

  (** *** Blade-element solve *)

  (** lines 459-464: _correct_ei at one station *)
  Definition correct_ei (beta einf ei : T) : T :=
    let cs := nsign (beta - einf) in
    let ei := if nabs ei <? n1 then ei else ndec 3 1 * cs in
    if nsign ei =? cs then ei else ei * nopp n1.

  (** lines 386-388: constants of the equation for the induced angle *)
  Definition ei_a (k : nat) (d : T) (s : station T) : T := chatb k d s / (nint 8 * z_zeta s).
  Definition ei_b (k : nat) (beta_last : T) (s : station T) : T :=
    nacos (nexp (- (nnat k * (n1 - z_zeta s)) / (n2 * nsin beta_last))).
  (** lines 453-457: _ei_function, given the lift coefficient *)
  Definition ei_residual (k : nat) (d bl : T) (s : station T) (einf ei cl : T) : T :=
    ei_a k d s * cl - ei_b k bl s * ntan ei * nsin (einf + ei).
  Definition ei_function (mem : nat -> T) (k : nat) (d bl : T) (l : list (station T * (T * T)))
    : list T :=
    map2 (fun q cl => ei_residual k d bl (fst q) (fst (snd q)) (snd (snd q)) cl) l
         (get_CL mem (map fst l) (map (fun q => z_beta (fst q) - fst (snd q) - snd (snd q)) l)).

  Definition ei_error : T := ndec 1 11.
  Definition e_moves (e : estep T) : bool := ngtb (nabs (e_y1 e - e_y0 e)) ei_error.
  (** lines 438-441: secant update and correction at one station *)
  Definition e_update (e : estep T) : T :=
    correct_ei (z_beta (e_st e)) (e_inf e)
      (if e_moves e then e_x1 e - (e_y1 e * (e_x1 e - e_x0 e)) / (e_y1 e - e_y0 e) else e_x2 e).
  Definition e_next (e : estep T) (y : T) : estep T :=
    MkE (e_st e) (e_inf e) (e_x1 e) (e_update e) (e_update e) (e_y1 e) y.

  (** lines 436-450: the loop of _find_ei.  Returns the induced angles and the
      allocation count. *)
  Fixpoint ei_loop (fuel : nat) (mem : nat -> nat -> T) (clk : nat) (k : nat) (d bl : T) (i : nat)
           (l : list (estep T)) : res (list T * nat) :=
    match fuel with
    | O => Err OutOfFuel
    | S fuel =>
        let moving := List.length (filter e_moves l) in
        let x2 := map e_update l in
        if (Nat.ltb 50 (S i) && Nat.ltb moving 3) || Nat.eqb moving 0 then Ok (x2, clk)
        else
          let y := ei_function (mem clk) k d bl (map (fun e => (e_st e, (e_inf e, e_update e))) l) in
          ei_loop fuel mem (S clk) k d bl (S i) (map2 e_next l y)
    end.

  Fixpoint esteps (ss : list (station T)) (einf x0 x1 y0 y1 : list T) : list (estep T) :=
    match ss, einf, x0, x1, y0, y1 with
    | s :: ss, e :: einf, a :: x0, b :: x1, c :: y0, d :: y1 =>
        MkE s e a b a c d :: esteps ss einf x0 x1 y0 y1
    | _, _, _, _, _, _ => []
    end.

  (** lines 427-450: _find_ei *)
  Definition find_ei (fuel : nat) (mem : nat -> nat -> T) (clk : nat) (k : nat) (d bl : T)
             (ss : list (station T)) (einf ei : list T) : res (list T * nat) :=
    let x0 := ei in
    let x1 := map (fun x => x * (n1 + ndec 1 4) - ndec 1 4) x0 in
    let y0 := ei_function (mem clk) k d bl (combine ss (combine einf x0)) in
    let y1 := ei_function (mem (S clk)) k d bl (combine ss (combine einf x1)) in
    ei_loop fuel mem (S (S clk)) k d bl 0 (esteps ss einf x0 x1 y0 y1).

  (** lines 396-416: integrands of thrust, torque, normal force and yawing moment *)
  Definition integrands (k : nat) (d : T) (s : station T) (einf ei cl cla cd : T) : T * T * T * T :=
    let cei := ncos ei in
    let ceinf := ncos einf in
    let cee := ncos (einf + ei) in
    let see := nsin (einf + ei) in
    let teinf := ntan einf in
    let z2 := z_zeta s * z_zeta s in
    let z3 := z2 * z_zeta s in
    let cei2 := cei * cei in
    let ceinf2 := ceinf * ceinf in
    let teinf2 := teinf * teinf in
    let ch := chatb k d s in
    (z2 * ch * (cei2 / ceinf2) * (cl * cee - cd * see),
     z3 * ch * (cei2 / ceinf2) * (cd * cee + cl * see),
     z2 * ch * cei2 * (n2 * teinf * (cd * cee + cl * see) - teinf2 * (cl * cee - (cla + cd) * see)),
     z3 * ch * cei2 * (n2 * teinf * (cl * cee - cd * see) + teinf2 * ((cla + cd) * cee + cl * see))).

  Fixpoint integrand_rows (k : nat) (d : T) (ss : list (station T)) (einf ei cl cla cd : list T)
    : list (T * T * T * T) :=
    match ss, einf, ei, cl, cla, cd with
    | s :: ss, a :: einf, b :: ei, c :: cl, e :: cla, f :: cd =>
        integrands k d s a b c e f :: integrand_rows k d ss einf ei cl cla cd
    | _, _, _, _, _, _ => []
    end.

  Definition set_coeffs (clk : nat) (ei einf alpha cl cd : list T) (CT Cl CNa Cna CP eff : T)
             (s : pstate T) : pstate T :=
    MkPS clk ei (p_n s) (p_J s) (p_power s) (p_throttle s) (p_v s) (p_rho s) (p_Vinf s)
         einf alpha cl cd CT Cl CNa Cna CP eff
         (p_Vi s) (p_Vxi s) (p_Vti s) (p_T s) (p_l s) (p_F s) (p_M s).

  (** line 378 *)
  Definition advance_angles (J : T) (ss : list (station T)) : list T :=
    map (fun s => natan2 J (npi * z_zeta s)) ss.
  (** lines 381-383: np.any(self._ei), first guess *)
  Definition first_guess (ss : list (station T)) (einf ei : list T) : list T :=
    if existsb ntruthy ei then ei else map2 (fun s e => z_beta s - e) ss einf.

  (** lines 377-425: _find_coefficients *)
  Definition find_coefficients (E : penv T) (g : pgeom T) : st (pstate T) unit :=
    fun s =>
      let ss := pg_stations g in
      let k := pg_k g in
      let d := pg_d g in
      let mem := pe_mem E (pg_name g) in
      let einf := advance_angles (p_J s) ss in
      let ei0 := first_guess ss einf (p_ei s) in
      match last_of ss with
      | None => (Err IndexError, s)
      | Some sl =>
          match find_ei (pe_fuel E) mem (p_clock s) k d (z_beta sl) ss einf ei0 with
          | Err e => (Err e, s)
          | Ok (ei, clk) =>
              let alpha := map2 (fun q x => z_beta (fst q) - snd q - x) (combine ss einf) ei in
              let cl := get_CL (mem clk) ss alpha in
              let cd := get_CD (mem (S clk)) ss cl alpha in
              let da := ndec 1 3 in
              let clf := get_CL (mem (S (S clk))) ss (map (fun a => a + da) alpha) in
              let clb := get_CL (mem (S (S (S clk)))) ss (map (fun a => a - da) alpha) in
              let cla := map2 (fun f b => (f - b) / n2 / da) clf clb in
              let rows := integrand_rows k d ss einf ei cl cla cd in
              let zs := map (@z_zeta T) ss in
              let pi2 := npi * npi in
              let CT := pi2 / nint 4 * pe_simps E (map (fun q => fst (fst (fst q))) rows) zs in
              let Cl := pi2 / nint 8 * pe_simps E (map (fun q => snd (fst (fst q))) rows) zs in
              let CNa := pi2 / nint 8 * pe_simps E (map (fun q => snd (fst q)) rows) zs in
              let Cna := pi2 / nint 16 * pe_simps E (map (fun q => snd q) rows) zs in
              let CP := Cl * n2 * npi in
              let eff := if CT <=? n0 then n0 else CT * p_J s / CP in
              (Ok tt, set_coeffs (clk + 4) ei einf alpha cl cd CT Cl CNa Cna CP eff s)
          end
      end.

  (** *** Rotation rate from power or from an electric motor *)

  Definition cube (x : T) : T := x * x * x.
  Definition fourth (x : T) : T := x * x * x * x.
  Definition fifth (x : T) : T := x * x * x * x * x.

  (** lines 495-500 and 520-523: set the rate, J and solve *)
  Definition solve_at_rate (E : penv T) (g : pgeom T) (n : T) : st (pstate T) unit :=
    smod (fun s => set_op n (p_Vinf s / (n * pg_d g)) (p_power s) (p_throttle s) s) ;;;
    find_coefficients E g.
  Definition zero_power_difference (E : penv T) (g : pgeom T) (power n : T) : st (pstate T) T :=
    solve_at_rate E g n ;;;
    s <- sget (fun s => s) ;;
    sret (p_rho s * cube (p_n s) * fifth (pg_d g) * p_CP s - power).
  (** lines 531-541: _electric_motor_torque *)
  Definition motor_torque (g : pgeom T) (m : motor T) (throttle n : T) : res T :=
    let Nr := n * nint 60 in
    let ns := n1 - ndec 79 3 * (n1 - throttle) in
    let Im := (ns * throttle * mo_eo m - mo_gr m / mo_kv m * Nr) /
              (ns * throttle * mo_rb m + mo_rc m + mo_rm m) in
    let Tq := ndec 70432 4 * mo_gr m / mo_kv m * (Im - mo_io m) in
    match pg_units g with
    | None => Err RuntimeError
    | Some u => if String.eqb u "English" then Ok Tq else Ok (Tq * ndec 13558179483314 13)
    end.
  Definition zero_torque_difference (E : penv T) (g : pgeom T) (m : motor T) (throttle n : T)
    : st (pstate T) T :=
    solve_at_rate E g n ;;;
    s <- sget (fun s => s) ;;
    Tq <- slift (motor_torque g m throttle (p_n s)) ;;
    sret (p_rho s * (p_n s * p_n s) * fifth (pg_d g) * p_Cl s - Tq).

  Definition rate_error : T := ndec 1 14.
  (** lines 484-493 and 509-518: secant iteration on the rotation rate *)
  Fixpoint rate_loop (fuel : nat) (f : T -> st (pstate T) T) (x0 y0 x1 y1 : T) : st (pstate T) T :=
    match fuel with
    | O => sraise OutOfFuel
    | S fuel =>
        let x2 := x1 - y1 * (x1 - x0) / (y1 - y0) in
        if nabs (x2 - x1) <? rate_error then sret x2
        else y2 <- f x2 ;; rate_loop fuel f x1 y1 x2 y2
    end.
  (** lines 478-493 / 503-518: _find_rot_rate_power, _find_rot_rate_motor *)
  Definition find_rate (fuel : nat) (f : T -> st (pstate T) T) : st (pstate T) T :=
    x0 <- sget (@p_n T) ;;
    let x1 := x0 * ndec 15 1 in
    y0 <- f x0 ;;
    if nabs y0 <? rate_error then sret x0
    else y1 <- f x1 ;; rate_loop fuel f x0 y0 x1 y1.

  (** lines 467-476: _prop_state_from_power.  The search starts at the present rate, from
      which line 497 (522) computes J first: a Python division.  Simplification: rates tried
      later are numpy numbers, by which Python divides without exception even if zero. *)
  Definition state_from_power (E : penv T) (g : pgeom T) : st (pstate T) unit :=
    s <- sget (fun s => s) ;;
    n <- (match p_throttle s with
          | Some th =>
              match pg_motor g with
              | Some m =>
                  slift (pydiv (p_Vinf s) (p_n s * pg_d g)) ;;;
                  find_rate (pe_fuel E) (zero_torque_difference E g m th)
              | None => sraise RuntimeError
              end
          | None =>
              match p_power s with
              | Some pw =>
                  slift (pydiv (p_Vinf s) (p_n s * pg_d g)) ;;;
                  find_rate (pe_fuel E) (zero_power_difference E g pw)
              | None => sraise AttributeError
              end
          end) ;;
    smod (fun s => set_op n (p_Vinf s / (n * pg_d g)) (p_power s) (p_throttle s) s).

  (** *** Forces *)

  (** lines 1546-1551: _vec_angle; m.acos raises outside [-1,1] *)
  Definition vec_angle (a b : vec3 T) : res T :=
    let mag := vnorm a * vnorm b in
    let c := vdot a b / mag in
    if (c <? nint (-1)) || (n1 <? c) then Err ValueError else Ok (nacos c).

  (** lines 576-583: _find_Vi *)
  Definition find_Vi (ss : list (station T)) (s : pstate T) : pstate T :=
    let vi := map2 (fun q ei => p_n s * n2 * npi * z_r (fst q) * nsin ei / ncos (snd q))
                   (combine ss (p_einf s)) (p_ei s) in
    let eb := map2 nadd (p_ei s) (p_einf s) in
    MkPS (p_clock s) (p_ei s) (p_n s) (p_J s) (p_power s) (p_throttle s) (p_v s) (p_rho s) (p_Vinf s)
         (p_einf s) (p_alpha s) (p_CL s) (p_CD s) (p_CT s) (p_Cl s) (p_CNa s) (p_Cna s) (p_CP s)
         (p_eff s) vi (map2 (fun v e => v * ncos e) vi eb) (map2 (fun v e => v * nsin e) vi eb)
         (p_T s) (p_l s) (p_F s) (p_M s).

  (** lines 553-570: force and moment of the propeller *)
  Definition resolve (g : pgeom T) (cg : vec3 T) (s : pstate T) : res (vec3 T * vec3 T * T * T) :=
    let f := pg_forward g in
    let d := pg_d g in
    let w := vopp (p_v s) in
    let n2' := p_n s * p_n s in
    rlet angle := vec_angle f w in
    let '(Nf, nm, N_vec) :=
      if angle =? n0 then (n0, n0, vzero)
      else
        let N_dir := vcross (vcross w f) f in
        (p_rho s * n2' * fourth d * p_CNa s * angle, p_rho s * n2' * fifth d * p_Cna s * angle,
         vdivs N_dir (nsqrt (vx N_dir * vx N_dir + vy N_dir * vy N_dir + vz N_dir * vz N_dir))) in
    let Th := p_rho s * n2' * fourth d * p_CT s in
    let l := p_rho s * n2' * fifth d * p_Cl s * (- pg_rot g) in
    let F := vadd (vscale Th f) (vscale Nf N_vec) in
    let r := vsub (pg_pos g) cg in
    let off := V3 (vz F * vy r - vy F * vz r) (vx F * vz r - vz F * vx r) (vy F * vx r - vx F * vy r) in
    Ok (F, vadd (vadd off (vscale (pg_rot g * nm) N_vec)) (vscale l f), Th, l).

  Definition set_forces (q : vec3 T * vec3 T * T * T) (s : pstate T) : pstate T :=
    let '(F, M, Th, l) := q in
    MkPS (p_clock s) (p_ei s) (p_n s) (p_J s) (p_power s) (p_throttle s) (p_v s) (p_rho s) (p_Vinf s)
         (p_einf s) (p_alpha s) (p_CL s) (p_CD s) (p_CT s) (p_Cl s) (p_CNa s) (p_Cna s) (p_CP s)
         (p_eff s) (p_Vi s) (p_Vxi s) (p_Vti s) Th l F M.

  (** lines 545-571: _calc_forces *)
  Definition p_calc_forces (E : penv T) (g : pgeom T) (cg : vec3 T)
    : st (pstate T) (vec3 T * vec3 T * T * T) :=
    s <- sget (fun s => s) ;;
    (match p_power s, p_throttle s with
     | None, None => find_coefficients E g
     | _, _ => state_from_power E g
     end) ;;;
    smod (find_Vi (pg_stations g)) ;;;
    s <- sget (fun s => s) ;;
    q <- slift (resolve g cg s) ;;
    smod (set_forces q) ;;;
    sret q.

  (** *** Slipstream on the wings *)

  (** line 634 *)
  Definition development (s R : T) : T := n1 + s / nsqrt (s * s + R * R).
  (** lines 636-642: contracted radii, from the hub outwards *)
  Fixpoint contracted_from (Vinf kd r0 rp0 vx0 : T) (l : list (T * T)) : list T :=
    match l with
    | [] => []
    | (r, vxi) :: l =>
        let Vx2 := vxi + vx0 in
        let Kv := (n2 * Vinf + Vx2) / (n2 * Vinf + kd * Vx2) in
        let rp := nsqrt (rp0 * rp0 + (r * r - r0 * r0) * Kv) in
        rp :: contracted_from Vinf kd r rp vxi l
    end.
  Definition contracted (Vinf kd : T) (l : list (T * T)) : list T :=
    match l with
    | [] => []
    | (r, vxi) :: l => r :: contracted_from Vinf kd r r vxi l
    end.
  (** lines 644-647: axial and tangential velocities in the slipstream *)
  Definition swirl (rs vt rp : list T) : list T :=
    let m := Nat.div (List.length rs) 10 in
    let raw := map2 (fun q p => n2 * snd q * fst q / p) (combine rs vt) rp in
    let vm := nth m raw n0 in
    let rm := nth m rp n0 in
    mapi (fun i q => if Nat.ltb i m then vm / rm * snd q else fst q) (combine raw rp).

  (** lines 616-658: velocity added at one wing control point *)
  Definition point_velocity (g : pgeom T) (s : pstate T) (w : wpoint T) : vec3 T :=
    if wp_in w then
      let dist := - wp_t w in
      let kd := development dist (pg_d g / n2) in
      let rs := map (@z_r T) (pg_stations g) in
      let rp := contracted (p_Vinf s) kd (combine rs (p_Vxi s)) in
      let Vx := interpolate n0 n0 (combine rp (map (fun v => v * kd) (p_Vxi s))) (wp_dist w) in
      let Vt := interpolate n0 n0 (combine rp (swirl rs (p_Vti s) rp)) (wp_dist w) * pg_rot g in
      vadd (vscale Vt (wp_tangent w)) (vscale Vx (slip_dir g))
    else vzero.

  (** *** PropsSolver (propssolver.py) *)

  (** propssolver.py 7-14: __init__ *)
  Definition make_props (E : penv T) (pl : airplane T) (wing_points : option (list (vec3 T)))
    : res (list (pgeom T)) :=
    rmap (fun p => rlet u := get_units pl in make_pgeom E u wing_points p) (map snd (a_props pl)).

  (** propssolver.py 79-86: the part of prop_state a propeller sees *)
  Definition local_state (ps : option (dict (pval T))) (name : string) : option (pval T) :=
    match ps with
    | None | Some [] => None
    | Some d => match dget d name with Some v => Some v | None => Some (PDict d) end
    end.

  (** propssolver.py 88-91: one propeller *)
  Definition run_prop (E : penv T) (cg : vec3 T) (aero : option (aero_state T))
             (ps : option (dict (pval T))) (g : pgeom T) : st (pstate T) (vec3 T * vec3 T * T * T) :=
    p_set_aero aero ;;;
    p_set_prop (pg_d g) (local_state ps (pg_name g)) ;;;
    p_calc_forces E g cg.

  (** propssolver.py 78-93: all propellers in turn; the loop stops at an exception *)
  Fixpoint run_props (E : penv T) (cg : vec3 T) (aero : option (aero_state T))
           (ps : option (dict (pval T))) (gs : list (pgeom T)) (ss : list (pstate T))
    : res (list (vec3 T * vec3 T * T * T)) * list (pstate T) :=
    match gs, ss with
    | g :: gs, s :: ss =>
        match run_prop E cg aero ps g s with
        | (Err e, s') => (Err e, s' :: ss)
        | (Ok q, s') =>
            match run_props E cg aero ps gs ss with
            | (Err e, ss') => (Err e, s' :: ss')
            | (Ok qs, ss') => (Ok (q :: qs), s' :: ss')
            end
        end
    | _, _ => (Ok [], ss)
    end.

  (** propssolver.py 97-107: the "total" dictionary *)
  Record prop_total : Type := MkPT { pt_fm : fm T; pt_thrust : T; pt_torque : T }.

  (** propssolver.py 143-174: _initialize_velocity_field *)
  Definition velocity_field (aero : option (aero_state T)) (n : nat) : res (list (T * vec3 T)) :=
    match opt_truthy aero_truthy aero with
    | Some a =>
        match dget (an a) "V_mag", dget (an a) "rho" with
        | Some V, Some rho =>
            Ok (repeat (rho, vscale V (freestream n1 (dgetd (an a) "alpha" n0) (dgetd (an a) "beta" n0))) n)
        | _, _ => Err RuntimeError
        end
    | None => Ok (repeat (ndec 23769 7, V3 (nint (-10)) n0 n0) n)
    end.

  (** propssolver.py 61-64: add the slipstream of every propeller *)
  Definition add_slipstream (g : pgeom T) (s : pstate T) (rows : list (T * vec3 T))
    : list (T * vec3 T) :=
    match pg_wing g with
    | Some pts => map2 (fun row w => (fst row, vadd (snd row) (point_velocity g s w))) rows pts
    | None => rows
    end.
  Fixpoint slipstreams (gs : list (pgeom T)) (ss : list (pstate T)) (rows : list (T * vec3 T))
    : list (T * vec3 T) :=
    match gs, ss with
    | g :: gs, s :: ss => slipstreams gs ss (add_slipstream g s rows)
    | _, _ => rows
    end.

  (** propssolver.py 70-109: _calc_forces.  [aero_state.get] on None raises
      AttributeError; with no propeller, T is unbound. *)
  Definition calc_forces (E : penv T) (cg : vec3 T) (aero : option (aero_state T))
             (ps : option (dict (pval T))) (gs : list (pgeom T))
    : st (list (pstate T)) prop_total :=
    fun ss =>
      match run_props E cg aero ps gs ss with
      | (Err e, ss') => (Err e, ss')
      | (Ok qs, ss') =>
          let F := fold_left (fun a q => vadd a (fst (fst (fst q)))) qs vzero in
          let M := fold_left (fun a q => vadd a (snd (fst (fst q)))) qs vzero in
          match aero with
          | None => (Err AttributeError, ss')
          | Some a =>
              let u := freestream n1 (dgetd (an a) "alpha" n0) (dgetd (an a) "beta" n0) in
              match last_of qs with
              | None => (Err UnboundLocalError, ss')
              | Some (_, _, Th, l) => (Ok (MkPT (make_fm u F M) Th l), ss')
              end
          end
      end.

  (** propssolver.py 17-67: solve *)
  Definition props_solve (E : penv T) (cg : vec3 T) (wing_points : option nat)
             (aero : option (aero_state T)) (ps : option (dict (pval T))) (gs : list (pgeom T))
    : st (list (pstate T)) (prop_total * option (list (T * vec3 T))) :=
    r <- calc_forces E cg aero ps gs ;;
    match wing_points with
    | None => sret (r, None)
    | Some n =>
        rows <- slift (velocity_field aero n) ;;
        ss <- sget (fun ss => ss) ;;
        sret (r, Some (slipstreams gs ss rows))
    end.

  (** propssolver.py 187-198: the rows of one propeller in _distributions *)
  Record blade_row : Type := MkBlade {
    b_name : string; b_r : T; b_chord : T; b_pitch : T; b_advance : T; b_induced : T; b_alpha : T;
    b_cl : T; b_cd : T; b_Vi : T; b_Vx : T; b_Vt : T
  }.
  Fixpoint blade_rows (name : string) (ss : list (station T)) (einf ei al cl cd vi vx vt : list T)
    : list blade_row :=
    match ss, einf, ei, al, cl, cd, vi, vx, vt with
    | s :: ss, a :: einf, b :: ei, c :: al, d :: cl, e :: cd, f :: vi, g :: vx, h :: vt =>
        MkBlade name (z_r s) (z_cb s) (ndeg (z_beta s)) (ndeg a) (ndeg b) (ndeg c) d e f g h ::
        blade_rows name ss einf ei al cl cd vi vx vt
    | _, _, _, _, _, _, _, _, _ => []
    end.
  Definition prop_rows (g : pgeom T) (s : pstate T) : list blade_row :=
    let s := find_Vi (pg_stations g) s in
    blade_rows (pg_name g) (pg_stations g) (p_einf s) (p_ei s) (p_alpha s) (p_CL s) (p_CD s)
               (p_Vi s) (p_Vxi s) (p_Vti s).
  (** propssolver.py 176-200: _distributions, propeller after propeller *)
  Fixpoint prop_distributions (gs : list (pgeom T)) (ss : list (pstate T)) : list blade_row :=
    match gs, ss with
    | g :: gs, s :: ss => prop_rows g s ++ prop_distributions gs ss
    | _, _ => []
    end.
End PropModel.
