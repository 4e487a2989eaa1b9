(** Model of /repo/machup/llmodel.py. *)
From Coq Require Import ZArith String Bool Arith List.
From Verif Require Import Base Num Geometry Grid.
Import ListNotations.
Set Implicit Arguments.

(** [aero_state]: a dictionary of numbers plus, possibly, the array under the key
    "local_state" (rows: density, velocity). *)
Record aero_state (T : Type) : Type := MkAero {
  an : dict T;
  als : option (list (T * vec3 T))
}.
Arguments MkAero {T} an als.

(** The dictionary of force and moment components ("FL" ... "MZ"). *)
Record fm (T : Type) : Type := MkFM {
  FL : T; FD : T; FS : T; FX : T; FY : T; FZ : T; MX : T; MY : T; MZ : T
}.

(** llmodel.py 101-105: content of [LLModel._results] after a solve *)
Record ll_results (T : Type) : Type := MkRes {
  r_inviscid : fm T;
  r_viscous : fm T;
  r_total : fm T;
  r_LoD : T                                   (* results["total"]["L/D"] *)
}.

(** llmodel.py 85-122: the mutable attributes of an [LLModel] that a later call
    or a query can observe.  Attributes that do not exist / are None before the
    first solve are options.  The number of vortices and the grid are constant. *)
Record ll_state (T : Type) : Type := MkLL {
  l_v : list (vec3 T);
  l_uinf : vec3 T;
  l_rho : list T;
  l_rates : vec3 T;
  l_delta : list T;                           (* delta_flap *)
  l_eff : list T;                             (* deflection_eff *)
  l_results : option (ll_results T);
  l_gamma : option (list T);
  l_alphas : option (list T);
  l_forces : option (list (vec3 T));
  l_cl : option (list T);
  l_cd : option (list T);
  l_cm : option (list T)
}.

(** What [LLModel.solve] returns: the object [self._results] itself. *)
Inductive result_ref : Type := TheResultsDict.

Fixpoint mapi_from {A B} (f : nat -> A -> B) (i : nat) (l : list A) : list B :=
  match l with
  | [] => []
  | x :: r => f i x :: mapi_from f (S i) r
  end.
Definition mapi {A B} (f : nat -> A -> B) (l : list A) : list B := mapi_from f 0 l.

(** A section with the flow and control values it currently sees: one index of
    the arrays v_loc, rho_loc, delta_flap, deflection_eff. *)
Record cell (T : Type) : Type := MkCell {
  c_sec : section T;
  c_v : vec3 T;
  c_rho : T;
  c_delta : T;
  c_eff : T
}.

(** Everything computed at one section from the vortex strengths. *)
Record cell_sol (T : Type) : Type := MkSol {
  so_vi : vec3 T;
  so_alpha : T;
  so_cl : T; so_cd : T; so_cm : T;
  so_force : vec3 T;
  so_par : vec3 T;
  so_moment : vec3 T;
  so_moment_par : vec3 T
}.

Section LLModel.
  Context {T : Type} {N : num_ops T}.
  Local Open Scope num_scope.

  (** [np.linalg.solve]: None when LinAlgError is raised *)
  Definition linear_solver := list (list T) -> list T -> option (list T).

  Definition aero_truthy (a : aero_state T) : bool :=
    dtruthy (an a) || match als a with Some _ => true | None => false end.
  Definition opt_truthy {A} (t : A -> bool) (o : option A) : option A :=
    match o with Some a => if t a then Some a else None | None => None end.

  (** llmodel.py 85-122: LLModel.__init__ *)
  Definition init_ll (n : nat) : ll_state T :=
    MkLL (repeat vzero n) vzero (repeat n1 n) vzero (repeat n0 n) (repeat n0 n)
         None None None None None None None.

  Definition set_flow (v : list (vec3 T)) (u : vec3 T) (rho : list T) (s : ll_state T) : ll_state T :=
    MkLL v u rho (l_rates s) (l_delta s) (l_eff s) (l_results s) (l_gamma s) (l_alphas s)
         (l_forces s) (l_cl s) (l_cd s) (l_cm s).
  Definition set_rotation (v : list (vec3 T)) (rates : vec3 T) (s : ll_state T) : ll_state T :=
    MkLL v (l_uinf s) (l_rho s) rates (l_delta s) (l_eff s) (l_results s) (l_gamma s) (l_alphas s)
         (l_forces s) (l_cl s) (l_cd s) (l_cm s).
  Definition set_control (d e : list T) (s : ll_state T) : ll_state T :=
    MkLL (l_v s) (l_uinf s) (l_rho s) (l_rates s) d e (l_results s) (l_gamma s) (l_alphas s)
         (l_forces s) (l_cl s) (l_cd s) (l_cm s).

  (** llmodel.py 190-200 (and 166-176): freestream velocity vector *)
  Definition freestream (V alpha_deg beta_deg : T) : vec3 T :=
    let alpha := nrad alpha_deg in
    let beta := nrad beta_deg in
    let c_a := ncos alpha in
    let s_a := nsin alpha in
    let c_b := ncos beta in
    let s_b := nsin beta in
    let m := V / nsqrt (n1 - s_a * s_a * s_b * s_b) in
    V3 (m * (- c_a * c_b)) (m * (- c_a * s_b)) (m * (- s_a * c_b)).
  Definition unit_of (v : vec3 T) : vec3 T := vdivs v (vnorm v).

  (** numpy assignment [arr[:] = rows] where arr has [n] rows; one row is broadcast *)
  Definition broadcast {A} (n : nat) (rows : list A) : res (list A) :=
    match rows with
    | [x] => Ok (repeat x n)
    | _ => if Nat.eqb (List.length rows) n then Ok rows else Err ValueError
    end.

  (** np.mean(v, axis=0) *)
  Definition vmean (v : list (vec3 T)) : vec3 T := vdivs (vsum v) (nnat (List.length v)).

  Definition has_rates (a : dict T) : bool :=
    dmem a "roll_rate" || dmem a "pitch_rate" || dmem a "yaw_rate".
  Definition rates_of (a : dict T) : vec3 T :=
    V3 (dgetd a "roll_rate" n0) (dgetd a "pitch_rate" n0) (dgetd a "yaw_rate" n0).

  (** llmodel.py 216-230: _superimpose_rotation *)
  Definition superimpose_rotation (g : grid T) (cg : vec3 T) (a : dict T) (s : ll_state T)
    : ll_state T :=
    let w := rates_of a in
    set_rotation (map2 (fun v sec => vsub v (vcross w (vsub (s_r sec) cg))) (l_v s) (g_sections g))
                 w s.

  (** llmodel.py 156-214: _process_aero_state *)
  Definition process_aero (g : grid T) (cg : vec3 T) (state : option (aero_state T))
    : st (ll_state T) unit :=
    let n := g_num g in
    match opt_truthy aero_truthy state with
    | Some a =>
        (match als a with
         | Some rows =>
             rs <- slift (broadcast n rows) ;;
             let v := map snd rs in
             let rho := map fst rs in
             match dget (an a) "V_mag" with
             | Some V =>
                 let f := freestream V (dgetd (an a) "alpha" n0) (dgetd (an a) "beta" n0) in
                 smod (set_flow v (unit_of f) rho)
             | None =>
                 let m := vmean v in
                 smod (set_flow v (vdivs m (nsqrt (vx m * vx m + vy m * vy m + vz m * vz m))) rho)
             end
         | None =>
             match dget (an a) "V_mag", dget (an a) "rho" with
             | Some V, Some rho =>
                 let f := freestream V (dgetd (an a) "alpha" n0) (dgetd (an a) "beta" n0) in
                 smod (set_flow (repeat f n) (unit_of f) (repeat rho n))
             | _, _ => sraise RuntimeError
             end
         end) ;;;
        (if has_rates (an a) then smod (superimpose_rotation g cg (an a)) else sret tt)
    | None =>
        smod (fun s =>
          set_flow (map (fun v => V3 (nint (-10)) (vy v) (vz v)) (l_v s))
                   (V3 (nint (-1)) (vy (l_uinf s)) (vz (l_uinf s))) (l_rho s) s)
    end.

  (** llmodel.py 235-244: commanded deflection of a section (radians) *)
  Definition section_delta (c : dict T) (sec : section T) : T :=
    nrad (dgetd c "aileron" n0 * s_mix_a sec + dgetd c "elevator" n0 * s_mix_e sec +
          dgetd c "rudder" n0 * s_mix_r sec + dgetd c "flap" n0 * s_mix_f sec).
  (** llmodel.py 248-258: _compute_deflection_efficiency *)
  Definition deflection_eff (delta : T) : T :=
    let df_abs := nabs delta * nint 180 / npi in
    if ngtb df_abs (nint 11)
    then ndec (-871794871794872) 17 * df_abs + ndec 109589743589744 14
    else n1.
  (** llmodel.py 232-246: _process_control_state *)
  Definition process_control (g : grid T) (state : option (dict T)) : st (ll_state T) unit :=
    match opt_truthy dtruthy state with
    | Some c =>
        smod (fun s => let d := map (section_delta c) (g_sections g) in
                       set_control d (map deflection_eff d) s)
    | None => sret tt
    end.

  Fixpoint cells_of (secs : list (section T)) (v : list (vec3 T)) (rho d e : list T)
    : list (cell T) :=
    match secs, v, rho, d, e with
    | s :: secs, v0 :: v, r0 :: rho, d0 :: d, e0 :: e =>
        MkCell s v0 r0 d0 e0 :: cells_of secs v rho d e
    | _, _, _, _, _ => []
    end.
  Definition cells (g : grid T) (s : ll_state T) : list (cell T) :=
    cells_of (g_sections g) (l_v s) (l_rho s) (l_delta s) (l_eff s).

  (** llmodel.py 142-154: term_2, the bound vortex; zero on the diagonal *)
  Definition bound_term (same : bool) (ri1 ri2 : vec3 T) : vec3 T :=
    let m1 := vnorm ri1 in
    let m2 := vnorm ri2 in
    let num := vscale (m1 + m2) (vcross ri1 ri2) in
    let den := (m1 * m2) * (m1 * m2 + vdot ri1 ri2) in
    if same then vzero else vdivs num den.
  (** llmodel.py 329-332: a trailing vortex *)
  Definition trail_term (u r : vec3 T) : vec3 T :=
    let m := vnorm r in
    vdivs (vcross u r) (m * (m - vdot u r)).
  (** llmodel.py 124-154, 311-335: velocity induced at section [si] by the unit
      horseshoe vortex of section [sj] *)
  Definition induced (u : vec3 T) (same : bool) (si sj : section T) : vec3 T :=
    let r1 := vsub (s_r si) (s_r1 sj) in
    let r2 := vsub (s_r si) (s_r2 sj) in
    vscale (n1 / (nint 4 * npi))
           (vsub (vadd (trail_term u r2) (bound_term same r1 r2)) (trail_term u r1)).

  (** llmodel.py 381-390 *)
  Definition eff_flap (c : cell T) : T := s_flap_eff (c_sec c) * c_eff c * c_delta c.

  (** llmodel.py 351-356: matrix entry *)
  Definition a_entry (u : vec3 T) (same : bool) (ci cj : cell T) : T :=
    let v := c_v ci in
    let base := (- vnorm v * s_dS (c_sec ci) * tm (s_cla (c_sec ci)))
                * vdot (s_un (c_sec ci)) (induced u same (c_sec ci) (c_sec cj)) in
    if same then
      base + nint 2 * vnorm (vcross v (vsub (s_r2 (c_sec ci)) (s_r1 (c_sec ci))))
    else base.
  Definition a_matrix (u : vec3 T) (cs : list (cell T)) : list (list T) :=
    mapi (fun i ci => mapi (fun j cj => a_entry u (Nat.eqb i j) ci cj) cs) cs.

  (** llmodel.py 364-379: right-hand side *)
  Definition b_entry (c : cell T) : T :=
    let v := c_v c in
    let s := c_sec c in
    let alpha_loc := natan (vdot v (s_un s) / vdot v (s_ua s)) in
    let cl_left := tl (s_cla s) * (alpha_loc + (eff_flap c - tl (s_al0 s))) in
    let cl_right := tr (s_cla s) * (alpha_loc + (eff_flap c - tr (s_al0 s))) in
    let cl := cl_left + s_sp s * (cl_right - cl_left) in
    vnorm v * vnorm v * s_dS s * cl.

  (** llmodel.py 412: velocity at section [i] including induced velocities *)
  Definition total_velocity (u : vec3 T) (cs : list (cell T)) (gamma : list T) (i : nat)
             (ci : cell T) : vec3 T :=
    vadd (c_v ci)
         (vsum (map2 vscale gamma (mapi (fun j cj => induced u (Nat.eqb i j) (c_sec ci) (c_sec cj)) cs))).

  (** llmodel.py 530-532: section lift coefficient *)
  Definition section_cl (s : section T) (alpha : T) : T :=
    let cl_left := tl (s_cla s) * (alpha - tl (s_al0 s)) in
    let cl_right := tr (s_cla s) * (alpha - tr (s_al0 s)) in
    cl_left + s_sp s * (cl_right - cl_left).
  (** llmodel.py 537-547: section parasitic drag coefficient *)
  Definition section_cd (s : section T) (cl delta : T) : T :=
    let cd_left := tl (s_cd0 s) + tl (s_cd1 s) * cl + tl (s_cd2 s) * cl * cl in
    let cd_right := tr (s_cd0 s) + tr (s_cd1 s) * cl + tr (s_cd2 s) * cl * cl in
    cd_left + s_sp s * (cd_right - cd_left) + ndec 2 3 * nabs delta * nint 180 / npi.
  (** llmodel.py 601-603: section moment coefficient *)
  Definition section_cm (s : section T) (alpha delta : T) : T :=
    let cm_left := tl (s_cml0 s) + tl (s_cma s) * (alpha - tl (s_al0 s)) in
    let cm_right := tr (s_cml0 s) + tr (s_cma s) * (alpha - tr (s_al0 s)) in
    cm_left + s_sp s * (cm_right - cm_left) + delta * s_cmd s.

  (** llmodel.py 401-465, 517-581: quantities of one section *)
  Definition solve_cell (cg : vec3 T) (gamma : T) (vi : vec3 T) (c : cell T) : cell_sol T :=
    let s := c_sec c in
    let alpha := natan2 (vdot vi (s_un s)) (vdot vi (s_ua s)) in
    let V := vnorm (c_v c) in
    let q := ndec 5 1 * c_rho c * V * V in
    let force := vscale (c_rho c * gamma) (vcross vi (vsub (s_r2 s) (s_r1 s))) in
    let cl := section_cl s alpha in
    let cd := section_cd s cl (c_delta c) in
    let f_mag := ndec 5 1 * c_rho c * V * V * cd * s_dS s in
    let par := vdivs (vscale f_mag vi) (vnorm vi) in
    let cm := section_cm s alpha (c_delta c) in
    let arm := vsub (s_r s) cg in
    let moment := vadd (vscale (- q * cm * s_ic2 s) (s_us s)) (vcross arm force) in
    MkSol vi alpha cl cd cm force par moment (vcross arm par).

  Fixpoint solve_cells_from (u cg : vec3 T) (all : list (cell T)) (gammas : list T) (i : nat)
           (cs : list (cell T)) (gs : list T) : list (cell_sol T) :=
    match cs, gs with
    | c :: cs, g :: gs =>
        solve_cell cg g (total_velocity u all gammas i c) c ::
        solve_cells_from u cg all gammas (S i) cs gs
    | _, _ => []
    end.
  Definition solve_cells (u cg : vec3 T) (cs : list (cell T)) (gammas : list T)
    : list (cell_sol T) := solve_cells_from u cg cs gammas 0 cs gammas.

  (** llmodel.py 497-515: _rotate_aero_forces: lift, drag, side *)
  Definition wind_axes (u : vec3 T) (F : vec3 T) : T * T * T :=
    let L_xyz := vcross u vey in
    let L_xyz := vdivs L_xyz (vnorm L_xyz) in
    let S_xyz := vcross L_xyz u in
    let S_xyz := vdivs S_xyz (vnorm S_xyz) in
    let D := vdot F u in
    let D_vec := vscale D u in
    let L := vdot F L_xyz in
    let L_vec := vscale L L_xyz in
    let S_vec := vsub (vsub F L_vec) D_vec in
    (L, D, vdot S_vec S_xyz).

  (** llmodel.py 434-494 and 566-581: assembling the result dictionaries *)
  Definition make_fm (u F M : vec3 T) : fm T :=
    let '(fl, fd, fs) := wind_axes u F in
    MkFM fl fd fs (vx F) (vy F) (vz F) (vx M) (vy M) (vz M).
  Definition add_fm (a b : fm T) : fm T :=
    MkFM (FL a + FL b) (FD a + FD b) (FS a + FS b) (FX a + FX b) (FY a + FY b) (FZ a + FZ b)
         (MX a + MX b) (MY a + MY b) (MZ a + MZ b).
  Definition assemble (u : vec3 T) (sols : list (cell_sol T)) : ll_results T :=
    let inv := make_fm u (vsum (map (@so_force T) sols)) (vsum (map (@so_moment T) sols)) in
    let vis := make_fm u (vsum (map (@so_par T) sols)) (vsum (map (@so_moment_par T) sols)) in
    let tot := add_fm inv vis in
    MkRes inv vis tot (FL tot / FD tot).

  (** llmodel.py 303-307: the linear branch of solve *)
  Definition linear_solve (lsolve : linear_solver) (g : grid T) (cg : vec3 T)
    : st (ll_state T) result_ref :=
    fun s =>
      let cs := cells g s in
      let u := l_uinf s in
      match lsolve (a_matrix u cs) (map b_entry cs) with
      | None => (Err LinAlgError, s)
      | Some gammas =>
          let sols := solve_cells u cg cs gammas in
          (Ok TheResultsDict,
           MkLL (l_v s) (l_uinf s) (l_rho s) (l_rates s) (l_delta s) (l_eff s)
                (Some (assemble u sols)) (Some gammas) (Some (map (@so_alpha T) sols))
                (Some (map (@so_force T) sols)) (Some (map (@so_cl T) sols))
                (Some (map (@so_cd T) sols)) (Some (map (@so_cm T) sols)))
      end.

  (** llmodel.py 260-309: LLModel.solve *)
  Definition ll_solve (lsolve : linear_solver) (g : grid T) (cg : vec3 T) (stype : string)
             (aero : option (aero_state T)) (ctl : option (dict T))
    : st (ll_state T) result_ref :=
    process_aero g cg aero ;;;
    process_control g ctl ;;;
    if String.eqb stype "linear" then linear_solve lsolve g cg
    else sraise RuntimeError.

  (** Reading the dictionary object returned by solve *)
  Definition read_ref (s : ll_state T) (r : result_ref) : option (ll_results T) :=
    match r with TheResultsDict => l_results s end.

  (** llmodel.py 627-646: _find_stall_location.  [section_cl] does not exist
      before the first successful solve (AttributeError). *)
  Fixpoint first_stalled (secs : list (section T)) (cl : list T) : option (string * T) :=
    match secs, cl with
    | s :: secs, c :: cl =>
        if ngtb c (tm (s_clmax s)) then
          Some (s_name s,
                if String.eqb (substring 0 5 (s_name s)) "right" then s_sp s else n1 - s_sp s)
        else first_stalled secs cl
    | _, _ => None
    end.
  Definition find_stall_location (g : grid T) (s : ll_state T) : res (option (string * T)) :=
    match l_cl s with
    | None => Err AttributeError
    | Some cl => Ok (first_stalled (g_sections g) cl)
    end.

  (** llmodel.py 609-624: _distributions, one row per section *)
  Record dist_row : Type := MkDist {
    d_name : string; d_cp : vec3 T; d_chord : T; d_twist : T; d_dihedral : T; d_sweep : T;
    d_area : T; d_alpha : T; d_force : vec3 T; d_cl : T; d_cm : T; d_cd : T; d_al0 : T
  }.
  Fixpoint dist_rows (secs : list (section T)) (al : list T) (f : list (vec3 T)) (cl cm cd : list T)
    : list dist_row :=
    match secs, al, f, cl, cm, cd with
    | s :: secs, a :: al, f0 :: f, c :: cl, m :: cm, d :: cd =>
        MkDist (s_name s) (s_r s) (s_c s) (s_twist s) (s_dihedral s) (s_sweep s) (s_dS s)
               a f0 c m d (tm (s_al0 s)) :: dist_rows secs al f cl cm cd
    | _, _, _, _, _, _ => []
    end.
  Definition ll_distributions (g : grid T) (s : ll_state T) : res (list dist_row) :=
    match l_alphas s, l_forces s, l_cl s, l_cm s, l_cd s with
    | Some al, Some f, Some cl, Some cm, Some cd => Ok (dist_rows (g_sections g) al f cl cm cd)
    | _, _, _, _, _ => Err AttributeError
    end.
End LLModel.
