(** Model of /repo/machup/llgrid.py. *)
From Coq Require Import ZArith String Bool Arith List.
From Verif Require Import Base Num Geometry.
Import ListNotations.
Set Implicit Arguments.

(** An airfoil property of a section: interpolated value, value of the airfoil at
    the left end of the segment, value at the right end (llgrid.py 50-73). *)
Record tri (T : Type) : Type := Tri { tm : T; tl : T; tr : T }.
Arguments Tri {T} tm tl tr.
Arguments tm {T} t.
Arguments tl {T} t.
Arguments tr {T} t.

(** One index of the parallel arrays in [LLGrid._data] (llgrid.py 38-87). *)
Record section (T : Type) : Type := MkSection {
  s_name : string;
  s_sp : T; s_sp1 : T; s_sp2 : T;              (* spacing_cp, spacing_1, spacing_2 *)
  s_r : vec3 T; s_r1 : vec3 T; s_r2 : vec3 T;
  s_c : T; s_c1 : T; s_c2 : T;
  s_dS : T;
  s_cla : tri T; s_al0 : tri T; s_cma : tri T; s_cml0 : tri T;
  s_cd0 : tri T; s_cd1 : tri T; s_cd2 : tri T; s_clmax : tri T;
  s_washout : T; s_mount : T; s_dihedral : T; s_sweep : T;
  s_ua : vec3 T; s_un : vec3 T; s_us : vec3 T;
  s_flap_eff : T;
  s_mix_a : T; s_mix_e : T; s_mix_r : T; s_mix_f : T;
  s_cmd : T;
  s_ic2 : T
}.

(** An [LLGrid] object: the arrays, the slices and the reference area. *)
Record grid (T : Type) : Type := MkGrid {
  g_num : nat;
  g_segments : list (segment T);
  g_slices : list (nat * nat);
  g_sections : list (section T);
  g_ref_area : T
}.

Section Grid.
  Context {T : Type} {N : num_ops T}.
  Local Open Scope num_scope.

  (** llgrid.py 38-87: the arrays before _update_data *)
  Definition zero_tri : tri T := Tri n0 n0 n0.
  Definition zero_section : section T :=
    MkSection EmptyString n0 n0 n0 vzero vzero vzero n0 n0 n0 n0
              zero_tri zero_tri zero_tri zero_tri zero_tri zero_tri zero_tri zero_tri
              n0 n0 n0 n0 vzero vzero vzero n0 n0 n0 n0 n0 n0 n0.

  (** llgrid.py 143-148: entry [i] of _cosine_spacing(n, offset) *)
  Definition cosine_spacing (n : nat) (offset : T) (i : nat) : T :=
    ndec 5 1 * (n1 - ncos ((npi / nnat n) * (nnat i - offset))).
  (** llgrid.py 151-156: entry [i] of _linear_spacing(n, offset) *)
  Definition linear_spacing (n : nat) (offset : T) (i : nat) : T :=
    (nnat i - offset) / nnat n.
  Definition spacing (cosine : bool) (n : nat) (offset : T) (i : nat) : T :=
    if cosine then cosine_spacing n offset i else linear_spacing n offset i.

  (** llgrid.py 124-133: spacing of control point and corners of section [i] *)
  Definition sp_cp (cosine : bool) (n i : nat) : T := spacing cosine n (ndec 5 1) (S i).
  Definition sp_1 (cosine : bool) (n i : nat) : T := spacing cosine n (nint 0) i.
  Definition sp_2 (cosine : bool) (n i : nat) : T := spacing cosine n (nint 0) (S i).

  (** llgrid.py 172-181: _calc_unit_s *)
  Definition unit_s (left right : vec3 T) : vec3 T :=
    let u := vsub right left in vdivs u (vnorm u).

  (** llgrid.py 158-170: one point of _calc_segment_points *)
  Definition segment_point (left right : vec3 T) (s : T) : vec3 T :=
    let len := vnorm (vsub right left) in
    let u := unit_s left right in
    V3 (len * s * vx u + vx left) (len * s * vy u + vy left) (len * s * vz u + vz left).

  (** llgrid.py 205-218: _interp_accross_segment at one point *)
  Definition interp (left right s : T) : T := left + s * (right - left).
  Definition interp_tri (left right s : T) : tri T := Tri (interp left right s) left right.

  (** llgrid.py 183-192, 239-245, 290-294: values at the left and right end *)
  Definition lr_of_side {A} (side : seg_side) (root tip : A) : A * A :=
    match side with SLeft => (tip, root) | SRight => (root, tip) end.

  (** llgrid.py 227-230: section area *)
  Definition section_area (sweep_deg : T) (r1 r2 : vec3 T) (c1 c2 : T) : T :=
    let sweep := nrad sweep_deg in
    let spanwise_l := ncos sweep * vnorm (vsub r2 r1) in
    spanwise_l * (c1 + c2) / nint 2.

  (** llgrid.py 265-286: axial, normal, spanwise unit vectors *)
  Definition unit_vectors (side : seg_side) (mount washout dihedral_deg : T)
    : vec3 T * vec3 T * vec3 T :=
    let twist := nrad (mount - washout) in
    let dih := nrad dihedral_deg in
    let st := nsin twist in
    let ct := ncos twist in
    let sd := nsin dih in
    let cd := ncos dih in
    let flip (v : vec3 T) :=
      match side with SLeft => V3 (vx v) (vy v * nint (-1)) (vz v) | SRight => v end in
    let normal := flip (V3 (- st) (- sd * ct) (- cd * ct)) in
    let axial := flip (V3 (- ct) (sd * st) (cd * st)) in
    (axial, normal, vcross axial normal).

  (** llgrid.py 387-392: deflection effectiveness and hinge efficiency fits *)
  Definition eps_flap (cf : T) : T :=
    let theta := nacos (nint 2 * cf - n1) in
    n1 - (theta - nsin theta) / npi.
  Definition eta_hinge (cf : T) : T :=
    ndec 39598 4 * natan ((cf + ndec 6527 6) * ndec 892574 4 + ndec 4898015 6) - ndec 518786 5.
  (** llgrid.py 396 *)
  Definition cm_delta (cf : T) : T :=
    let theta := nacos (nint 2 * cf - n1) in
    (nsin (nint 2 * theta) - nint 2 * nsin theta) / nint 4.

  (** llgrid.py 371-400: flap effectiveness, Cm_d and the four mixing values of a
      section whose control point has spacing [s]; zeros when not covered. *)
  Definition section_control (sg : segment T) (s : T) : T * T * (T * T * T * T) :=
    let (surf_start, surf_end) := seg_control_span sg in
    let (chord_start, chord_end) := seg_control_chord sg in
    let slope := (chord_end - chord_start) / (surf_end - surf_start) in
    let cf := (s - surf_start) * slope + chord_start in
    if ngtb s surf_start && nltb s surf_end then
      let eta := if cs_sealed (sg_control sg) then eta_hinge cf
                 else eta_hinge cf * ndec 8 1 in
      (eta * eps_flap cf, cm_delta cf, seg_control_mix sg)
    else (n0, n0, (n0, n0, n0, n0)).

  (** llgrid.py 95-111, one index of one segment.  [left] and [right] are the
      positions of the segment's tips; int_chord2 is filled in later. *)
  Definition make_section (cosine : bool) (sg : segment T) (left right : vec3 T) (i : nat)
    : section T :=
    let n := sg_num sg in
    let s := sp_cp cosine n i in
    let s1 := sp_1 cosine n i in
    let s2 := sp_2 cosine n i in
    let r1 := segment_point left right s1 in
    let r2 := segment_point left right s2 in
    let (cl, cr) := lr_of_side (sg_side sg) (sg_root_chord sg) (sg_tip_chord sg) in
    let c1 := interp cl cr s1 in
    let c2 := interp cl cr s2 in
    let (wl, wr) := lr_of_side (sg_side sg) n0 (sg_washout sg) in
    let washout := interp wl wr s in
    let '(ua, un, us) := unit_vectors (sg_side sg) (sg_mount sg) washout (sg_dihedral sg) in
    let (al, ar) := lr_of_side (sg_side sg) (sg_root_af sg) (sg_tip_af sg) in
    let coef (f : airfoil T -> T) := interp_tri (f al) (f ar) s in
    let '(flap, cmd, (ma, me, mr, mf)) := section_control sg s in
    MkSection (sg_name sg) s s1 s2
              (segment_point left right s) r1 r2
              (interp cl cr s) c1 c2
              (section_area (sg_sweep sg) r1 r2 c1 c2)
              (coef (@af_CL_alpha T)) (coef (@af_alpha_L0 T)) (coef (@af_Cm_alpha T))
              (coef (@af_Cm_L0 T)) (coef (@af_CD_0 T)) (coef (@af_CD_L T)) (coef (@af_CD_L2 T))
              (coef (@af_CL_max T))
              washout (sg_mount sg) (sg_dihedral sg) (sg_sweep sg)
              ua un us flap ma me mr mf cmd n0.

  (** Enough fuel to resolve any attachment chain (theorem C10). *)
  Definition position_fuel (pl : airplane T) : nat := S (List.length (a_store pl)).

  (** llgrid.py 95-111: the block of sections of one segment.  Python division by
      zero raises: [np.pi/num_sections] (line 146, a Python integer) and the
      control chord slope (line 371, Python floats). *)
  Definition segment_block (cosine : bool) (pl : airplane T) (sg : segment T)
    : res (list (section T)) :=
    if cosine && Nat.eqb (sg_num sg) 0 then Err ZeroDivisionError else
    rlet lpos := seg_position (position_fuel pl) pl sg "left_tip" in
    rlet rpos := seg_position (position_fuel pl) pl sg "right_tip" in
    let (surf_start, surf_end) := seg_control_span sg in
    if surf_end - surf_start =? n0 then Err ZeroDivisionError else
    Ok (map (make_section cosine sg lpos rpos) (seq 0 (sg_num sg))).

  (** Assignment [arr[a:a+len(block)] = block] for numpy arrays; a slice that
      does not fit has another shape and raises ValueError. *)
  Definition write_block {A} (arr : list A) (a : nat) (block : list A) : res (list A) :=
    if Nat.leb (a + List.length block) (List.length arr)
    then Ok (firstn a arr ++ block ++ skipn (a + List.length block) arr)
    else Err ValueError.

  (** llgrid.py 231-232 *)
  Definition add_ref_area (sg : segment T) (block : list (section T)) (acc : T) : T :=
    if sg_is_main sg then acc + nsum (map (@s_dS T) block) else acc.

  (** llgrid.py 90-111: the loop of _update_data *)
  Fixpoint fill (cosine : bool) (pl : airplane T) (segs : list (segment T)) (index : nat)
           (slices : list (nat * nat)) (arr : list (section T)) (area : T)
    : res (list (nat * nat) * list (section T) * T) :=
    match segs with
    | [] => Ok (slices, arr, area)
    | sg :: rest =>
        let n := sg_num sg in
        rlet block := segment_block cosine pl sg in
        rlet arr' := write_block arr index block in
        fill cosine pl rest (index + n) (slices ++ [(index, index + n)%nat]) arr'
             (add_ref_area sg block area)
    end.

  (** llgrid.py 402-413: _calc_integral_chord2 for one section *)
  Definition integral_chord2 (s : section T) : T :=
    let delta_l := vsub (s_r2 s) (s_r1 s) in
    let delta_s := nabs (vdot (s_us s) delta_l) in
    delta_s * (s_c2 s * s_c2 s + s_c1 s * s_c2 s + s_c1 s * s_c1 s) / nint 3.
  Definition set_ic2 (s : section T) : section T :=
    MkSection (s_name s) (s_sp s) (s_sp1 s) (s_sp2 s) (s_r s) (s_r1 s) (s_r2 s)
              (s_c s) (s_c1 s) (s_c2 s) (s_dS s) (s_cla s) (s_al0 s) (s_cma s) (s_cml0 s)
              (s_cd0 s) (s_cd1 s) (s_cd2 s) (s_clmax s) (s_washout s) (s_mount s)
              (s_dihedral s) (s_sweep s) (s_ua s) (s_un s) (s_us s) (s_flap_eff s)
              (s_mix_a s) (s_mix_e s) (s_mix_r s) (s_mix_f s) (s_cmd s) (integral_chord2 s).

  (** llgrid.py 30-112: LLGrid(plane, cosine_spacing) *)
  Definition make_grid (cosine : bool) (pl : airplane T) : res (grid T) :=
    let n := num_sections pl in
    let segs := wingsegments pl in
    rlet out := fill cosine pl segs 0 [] (repeat zero_section n) n0 in
    let '(slices, arr, area) := out in
    Ok (MkGrid n segs slices (map set_ic2 arr) area).

  (** llgrid.py 745-754: get_twist *)
  Definition s_twist (s : section T) : T := s_mount s - s_washout s.
End Grid.
