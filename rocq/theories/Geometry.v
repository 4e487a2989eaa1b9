(** Model of /repo/machup/geometry.py. *)
From Coq Require Import ZArith String Bool List.
From Verif Require Import Base Num.
Import ListNotations.
Set Implicit Arguments.
Local Open Scope string_scope.

(** ** Python values occurring as keyword arguments or in a parsed JSON file *)
Inductive pyval (T : Type) : Type :=
| VNone
| VBool (b : bool)
| VInt (z : Z)
| VNum (x : T)
| VStr (s : string)
| VList (l : list (pyval T))
| VDict (d : list (string * pyval T)).
Arguments VNone {T}.
Arguments VBool {T} b.
Arguments VInt {T} z.
Arguments VNum {T} x.
Arguments VStr {T} s.
Arguments VList {T} l.
Arguments VDict {T} d.

(** ** Immutable geometry records *)

(** geometry.py 1258-1283: the property table of an [Airfoil] object. *)
Record airfoil (T : Type) : Type := MkAirfoil {
  af_name : string;
  af_span_position : pyval T;
  af_alpha_L0 : T; af_CL_alpha : T; af_CL_max : T;
  af_Cm_L0 : T; af_Cm_alpha : T;
  af_CD_0 : T; af_CD_L : T; af_CD_L2 : T
}.

(** geometry.py 1389-1416: the attributes of a [ControlSurface] object. *)
Record control_surface (T : Type) : Type := MkCS {
  cs_span_root : T; cs_span_tip : T;
  cs_chord_root : T; cs_chord_tip : T;
  cs_sealed : bool;                       (* truth value of [_is_sealed] *)
  cs_mix : dict T
}.

(** [WingSegment._side] is only ever "left" or "right" (geometry.py 486-500). *)
Inductive seg_side : Type := SLeft | SRight.
(** The three accepted values of [Wing._side] (geometry.py 486-502). *)
Inductive wing_side : Type := WBoth | WRight | WLeft.

(** [WingSegment._parent]: None, the airplane, or a [Wing] object.  Wing objects
    are identified by their creation number. *)
Inductive parent : Type := PNone | PAirplane | PWing (id : nat).

(** geometry.py 696-747: the attributes of a [WingSegment]. *)
Record segment (T : Type) : Type := MkSegment {
  sg_name : string;
  sg_side : seg_side;
  sg_parent : parent;
  sg_connect_at : string;
  sg_delta : vec3 T;
  sg_is_main : bool;                      (* truth value of [_is_main] *)
  sg_yoffset : T; sg_span : T;
  sg_root_chord : T; sg_tip_chord : T;
  sg_sweep : T; sg_dihedral : T; sg_mount : T; sg_washout : T;
  sg_root_af : airfoil T; sg_tip_af : airfoil T;
  sg_control : control_surface T;
  sg_num : nat
}.

(** geometry.py 480-502: the attributes of a [Wing]. *)
Record wing (T : Type) : Type := MkWing {
  w_name : string;
  w_side : wing_side;
  w_left : option (segment T);
  w_right : option (segment T)
}.

(** geometry.py 1046-1067: the attributes of a [Prop]. *)
Record prop (T : Type) : Type := MkProp {
  pr_name : string;
  pr_position : vec3 T;
  pr_elevation : T; pr_heading : T;
  pr_nodes : nat;
  pr_diameter : T; pr_hub : T;
  pr_blades : nat;
  pr_rot_dir : pyval T;
  pr_pitch : dict (pyval T);
  pr_chord : dict (pyval T);
  pr_motor : dict (pyval T);
  pr_airfoils : dict (airfoil T)
}.

(** geometry.py 64-75: the attributes of an [Airplane].  Wing and propeller
    objects live in [a_store] / inside [a_props]; [a_wings] is the name table
    [_wings].  [a_units = None] means that the attribute [_units] does not exist
    (only _buildfrominputfile, line 88, creates it). *)
Record airplane (T : Type) : Type := MkAirplane {
  a_name : string;
  a_wings : dict nat;
  a_store : list (wing T);
  a_props : dict (prop T);
  a_cg : vec3 T;
  a_long_ref : option T;
  a_lat_ref : option T;
  a_position : option (vec3 T);
  a_units : option (option string)
}.

Section Geometry.
  Context {T : Type} {N : num_ops T}.
  Local Open Scope num_scope.
  Notation pyval := (pyval T).
  Notation kwargs := (dict pyval).

  (** *** Reading Python values *)

  (** Truth value ([if v:]). *)
  Definition ptruthy (v : pyval) : bool :=
    match v with
    | VNone => false
    | VBool b => b
    | VInt z => negb (Z.eqb z 0)
    | VNum x => ntruthy x
    | VStr s => negb (String.eqb s "")
    | VList l => match l with [] => false | _ => true end
    | VDict d => dtruthy d
    end.

  (** A value used as a number.  Simplification: a non-number raises TypeError
      here, while Python raises it at the first arithmetic use. *)
  Definition pnum (v : pyval) : res T :=
    match v with
    | VInt z => Ok (nint z)
    | VNum x => Ok x
    | VBool true => Ok n1
    | VBool false => Ok n0
    | _ => Err TypeError
    end.
  (** A number or None. *)
  Definition pnum_opt (v : pyval) : res (option T) :=
    match v with
    | VNone => Ok None
    | _ => rlet x := pnum v in Ok (Some x)
    end.
  (** A count used to size arrays. *)
  Definition pnat (v : pyval) : res nat :=
    match v with
    | VInt z => if Z.ltb z 0 then Err ValueError else Ok (Z.to_nat z)
    | _ => Err TypeError
    end.
  Definition pstr (v : pyval) : res string :=
    match v with VStr s => Ok s | _ => Err TypeError end.
  (** [v[k]] for a dictionary *)
  Definition pget (v : pyval) (k : string) : res pyval :=
    match v with VDict d => dlookup d k | _ => Err TypeError end.
  (** [v[k]] used as a number / string *)
  Definition pgetn (v : pyval) (k : string) : res T := rlet x := pget v k in pnum x.
  Definition pgets (v : pyval) (k : string) : res string := rlet x := pget v k in pstr x.
  (** [v[i]] for a list *)
  Definition pidx (v : pyval) (i : nat) : res pyval :=
    match v with
    | VList l => match nth_error l i with Some x => Ok x | None => Err IndexError end
    | _ => Err TypeError
    end.
  Definition pidxn (v : pyval) (i : nat) : res T := rlet x := pidx v i in pnum x.
  (** [k in v] *)
  Definition pdict (v : pyval) : res kwargs :=
    match v with VDict d => Ok d | _ => Err TypeError end.
  Definition pvec3 (v : pyval) : res (vec3 T) :=
    rlet x := pidxn v 0 in rlet y := pidxn v 1 in rlet z := pidxn v 2 in Ok (V3 x y z).
  Definition v3list (v : vec3 T) : pyval := VList [VNum (vx v); VNum (vy v); VNum (vz v)].

  (** *** Airfoil *)

  (** geometry.py 1272-1283 *)
  Definition default_airfoil (name : string) : airfoil T :=
    MkAirfoil name VNone (ndec (-369) 4) (ndec 62832 4) (ndec 14 1)
              (ndec (-527) 4) (ndec (-8) 2) (ndec 55 4) (ndec (-45) 4) (ndec 1 2).

  (** geometry.py 1258-1283: Airfoil.__init__.  Dictionary entries are evaluated
      in source order, so the first missing key raises KeyError. *)
  Definition make_airfoil (name : string) (data : kwargs) : res (airfoil T) :=
    if dtruthy data then
      let d := VDict data in
      rlet a0 := pgetn d "alpha_L0" in
      rlet cla := pgetn d "CL_alpha" in
      rlet clm := pgetn d "CL_max" in
      rlet cm0 := pgetn d "Cm_L0" in
      rlet cma := pgetn d "Cm_alpha" in
      rlet cd0 := pgetn d "CD0" in
      rlet cdl := pgetn d "CD0_L" in
      rlet cdl2 := pgetn d "CD0_L2" in
      Ok (MkAirfoil name (dgetd data "span_position" VNone) a0 cla clm cm0 cma cd0 cdl cdl2)
    else Ok (default_airfoil name).

  (** *** ControlSurface *)

  (** geometry.py 1389-1395: ControlSurface() without dimensions *)
  Definition default_cs : control_surface T := MkCS n0 n1 n0 n0 true [].

  (** geometry.py 1408-1416: the four recognised mixing keys are copied *)
  Fixpoint copy_mix (keys : list string) (m : kwargs) : res (dict T) :=
    match keys with
    | [] => Ok []
    | k :: ks =>
        match dget m k with
        | Some v => rlet x := pnum v in rlet r := copy_mix ks m in Ok ((k, x) :: r)
        | None => copy_mix ks m
        end
    end.
  Definition mix_keys : list string := ["aileron"; "elevator"; "rudder"; "flap"].

  (** geometry.py 1389-1416: ControlSurface.__init__(dimensions) *)
  Definition make_cs (dims : kwargs) : res (control_surface T) :=
    if dtruthy dims then
      rlet ps := dlookup dims "percent_span" in
      rlet s0 := pidxn ps 0 in
      rlet s1 := pidxn ps 1 in
      rlet pc := dlookup dims "percent_chord" in
      rlet c01 := match pc with
                  | VList _ => rlet c0 := pidxn pc 0 in rlet c1 := pidxn pc 1 in Ok (c0, c1)
                  | _ => rlet c := pnum pc in Ok (c, c)     (* except TypeError *)
                  end in
      let sealed := ptruthy (dgetd dims "sealed" (VInt 1)) in
      rlet mv := dlookup dims "mix" in
      rlet md := pdict mv in
      rlet mix := copy_mix mix_keys md in
      Ok (MkCS s0 s1 (fst c01) (snd c01) sealed mix)
    else Ok default_cs.

  (** geometry.py 1440-1470: ControlSurface.get_control_mix(side) *)
  Definition cs_get_mix (c : control_surface T) (side : seg_side) : dict T :=
    let get k := match dget (cs_mix c) k with Some x => [(k, x)] | None => [] end in
    let get_signed k :=
      match dget (cs_mix c) k with
      | Some x => [(k, match side with SRight => x | SLeft => - x end)]
      | None => []
      end in
    (get_signed "aileron" ++ get "elevator" ++ get_signed "rudder" ++ get "flap")%list.

  (** *** WingSegment *)

  (** geometry.py 696-747: WingSegment.__init__ and _unpack *)
  Definition make_segment (name : string) (side : seg_side) (dims : kwargs)
    : res (segment T) :=
    rlet dp := pvec3 (dgetd dims "position" (v3list vzero)) in
    let is_main := ptruthy (dgetd dims "is_main" (VInt 1)) in
    rlet yoff := pnum (dgetd dims "yoffset" (VNum n0)) in
    rlet span := pnum (dgetd dims "semispan" (VInt 4)) in
    rlet rc := pnum (dgetd dims "root_chord" (VInt 1)) in
    rlet tc := pnum (dgetd dims "tip_chord" (VNum rc)) in
    rlet sweep := pnum (dgetd dims "sweep" (VNum n0)) in
    rlet dih := pnum (dgetd dims "dihedral" (VNum n0)) in
    rlet mount := pnum (dgetd dims "mount_angle" (VNum n0)) in
    rlet wash := pnum (dgetd dims "washout" (VNum n0)) in
    rlet num := pnat (dgetd dims "grid" (VInt 40)) in
    Ok (MkSegment name side PNone "tip" dp is_main yoff span rc tc sweep dih mount wash
                  (default_airfoil "NACA2412") (default_airfoil "NACA2412") default_cs num).

  Definition side_str (s : seg_side) : string :=
    match s with SLeft => "left" | SRight => "right" end.

  (** geometry.py 750-767: WingSegment.connect_to *)
  Definition seg_connect (p : parent) (at_ : string) (s : segment T) : segment T :=
    MkSegment (sg_name s) (sg_side s) p (side_str (sg_side s) ++ "_" ++ at_)
              (sg_delta s) (sg_is_main s) (sg_yoffset s) (sg_span s) (sg_root_chord s)
              (sg_tip_chord s) (sg_sweep s) (sg_dihedral s) (sg_mount s) (sg_washout s)
              (sg_root_af s) (sg_tip_af s) (sg_control s) (sg_num s).

  Definition seg_set_airfoils (r t : airfoil T) (s : segment T) : segment T :=
    MkSegment (sg_name s) (sg_side s) (sg_parent s) (sg_connect_at s)
              (sg_delta s) (sg_is_main s) (sg_yoffset s) (sg_span s) (sg_root_chord s)
              (sg_tip_chord s) (sg_sweep s) (sg_dihedral s) (sg_mount s) (sg_washout s)
              r t (sg_control s) (sg_num s).

  (** geometry.py 769-785: WingSegment.airfoil(end, airfoil) *)
  Definition seg_airfoil (end_ : string) (af : airfoil T) (s : segment T) : segment T :=
    if String.eqb end_ "both" then seg_set_airfoils af af s
    else if String.eqb end_ "root" then seg_set_airfoils af (sg_tip_af s) s
    else if String.eqb end_ "tip" then seg_set_airfoils (sg_root_af s) af s
    else s.

  (** geometry.py 787-795: WingSegment.control_surface *)
  Definition seg_control_surface (c : control_surface T) (s : segment T) : segment T :=
    MkSegment (sg_name s) (sg_side s) (sg_parent s) (sg_connect_at s)
              (sg_delta s) (sg_is_main s) (sg_yoffset s) (sg_span s) (sg_root_chord s)
              (sg_tip_chord s) (sg_sweep s) (sg_dihedral s) (sg_mount s) (sg_washout s)
              (sg_root_af s) (sg_tip_af s) c (sg_num s).

  (** geometry.py 956-976: get_control_surface_span, (start, end) from the left *)
  Definition seg_control_span (s : segment T) : T * T :=
    match sg_side s with
    | SLeft => let end_ := n1 - cs_span_root (sg_control s) in
               let start := n1 - cs_span_tip (sg_control s) in
               (start, end_)
    | SRight => (cs_span_root (sg_control s), cs_span_tip (sg_control s))
    end.

  (** geometry.py 978-995: get_control_surface_chord, (left, right) *)
  Definition seg_control_chord (s : segment T) : T * T :=
    match sg_side s with
    | SLeft => (cs_chord_tip (sg_control s), cs_chord_root (sg_control s))
    | SRight => (cs_chord_root (sg_control s), cs_chord_tip (sg_control s))
    end.

  (** geometry.py 997-1012: get_control_mix: aileron, elevator, rudder, flap *)
  Definition seg_control_mix (s : segment T) : T * T * T * T :=
    let m := cs_get_mix (sg_control s) (sg_side s) in
    (dgetd m "aileron" n0, dgetd m "elevator" n0, dgetd m "rudder" n0, dgetd m "flap" n0).

  (** *** Wing *)

  (** geometry.py 480-502: Wing.__init__ *)
  Definition make_wing (name : string) (side : string) (dims : kwargs) : res (wing T) :=
    if String.eqb side "both" then
      rlet l := make_segment ("left_" ++ name) SLeft dims in
      rlet r := make_segment ("right_" ++ name) SRight dims in
      Ok (MkWing name WBoth (Some l) (Some r))
    else if String.eqb side "right" then
      rlet r := make_segment ("right_" ++ name) SRight dims in
      Ok (MkWing name WRight None (Some r))
    else if String.eqb side "left" then
      rlet l := make_segment ("left_" ++ name) SLeft dims in
      Ok (MkWing name WLeft (Some l) None)
    else Err RuntimeError.

  Definition optl {A} (o : option A) : list A := match o with Some x => [x] | None => [] end.

  (** geometry.py 524-538: Wing.get_wingsegments *)
  Definition wing_segments (w : wing T) : list (segment T) :=
    match w_side w with
    | WBoth => (optl (w_left w) ++ optl (w_right w))%list
    | WRight => optl (w_right w)
    | WLeft => optl (w_left w)
    end.

  Definition onum (o : option (segment T)) : nat :=
    match o with Some s => sg_num s | None => 0 end.
  (** geometry.py 504-522: Wing.get_num_sections *)
  Definition wing_num_sections (w : wing T) : nat :=
    match w_side w with
    | WBoth => onum (w_left w) + onum (w_right w)
    | WRight => onum (w_right w)
    | WLeft => onum (w_left w)
    end%nat.

  (** Applies a segment update to the segments selected by [_side]: the common
      shape of Wing.connect_to (540-565), airfoil (619-625), control_surface
      (659-665). *)
  Definition wing_map (f : segment T -> segment T) (w : wing T) : wing T :=
    match w_side w with
    | WBoth => MkWing (w_name w) (w_side w) (option_map f (w_left w)) (option_map f (w_right w))
    | WRight => MkWing (w_name w) (w_side w) (w_left w) (option_map f (w_right w))
    | WLeft => MkWing (w_name w) (w_side w) (option_map f (w_left w)) (w_right w)
    end.

  (** *** Airplane *)

  (** geometry.py 64-75: Airplane(name, position) without an input file *)
  Definition new_airplane (name : string) (position : option (vec3 T)) : airplane T :=
    MkAirplane name [] [] [] vzero None None position None.

  Fixpoint set_nth {A} (l : list A) (i : nat) (x : A) : list A :=
    match l, i with
    | [], _ => []
    | _ :: r, O => x :: r
    | y :: r, S j => y :: set_nth r j x
    end.

  Definition set_wings (pl : airplane T) (names : dict nat) (store : list (wing T)) : airplane T :=
    MkAirplane (a_name pl) names store (a_props pl) (a_cg pl) (a_long_ref pl) (a_lat_ref pl)
               (a_position pl) (a_units pl).
  Definition set_props (pl : airplane T) (ps : dict (prop T)) : airplane T :=
    MkAirplane (a_name pl) (a_wings pl) (a_store pl) ps (a_cg pl) (a_long_ref pl) (a_lat_ref pl)
               (a_position pl) (a_units pl).

  (** geometry.py 289-314: Airplane.add_wing.  Returns the reference to the new
      wing object.  The wing is stored before the parent is looked up. *)
  Definition add_wing (name : string) (connect_to : option string * string) (side : string)
                      (dims : kwargs) : st (airplane T) nat :=
    fun pl =>
      match make_wing name side dims with
      | Err e => (Err e, pl)
      | Ok w =>
          let id := List.length (a_store pl) in
          let names := dset (a_wings pl) name id in
          let pl1 := set_wings pl names (a_store pl ++ [w]) in
          let found :=
            match fst connect_to with
            | Some pn => if String.eqb pn "" then Ok PAirplane
                         else rlet pid := dlookup names pn in Ok (PWing pid)
            | None => Ok PAirplane
            end in
          match found with
          | Err e => (Err e, pl1)
          | Ok p =>
              (Ok id, set_wings pl1 names
                        (a_store pl ++ [wing_map (seg_connect p (snd connect_to)) w]))
          end
      end.

  (** geometry.py 589-627: Wing.airfoil on the wing object [id] *)
  Definition wing_airfoil (id : nat) (name end_ : string) (props : kwargs)
    : st (airplane T) (airfoil T) :=
    fun pl =>
      match nth_error (a_store pl) id with
      | None => (Err AttributeError, pl)
      | Some w =>
          match make_airfoil name props with
          | Err e => (Err e, pl)
          | Ok af => (Ok af, set_wings pl (a_wings pl)
                               (set_nth (a_store pl) id (wing_map (seg_airfoil end_ af) w)))
          end
      end.

  (** geometry.py 629-667: Wing.control_surface on the wing object [id] *)
  Definition wing_control_surface (id : nat) (props : kwargs)
    : st (airplane T) (control_surface T) :=
    fun pl =>
      match nth_error (a_store pl) id with
      | None => (Err AttributeError, pl)
      | Some w =>
          match make_cs props with
          | Err e => (Err e, pl)
          | Ok c => (Ok c, set_wings pl (a_wings pl)
                              (set_nth (a_store pl) id (wing_map (seg_control_surface c) w)))
          end
      end.

  Definition lookup_wings (pl : airplane T) : list (wing T) :=
    flat_map (fun e => optl (nth_error (a_store pl) (snd e))) (a_wings pl).
  (** geometry.py 247-259: Airplane.get_num_sections *)
  Definition num_sections (pl : airplane T) : nat :=
    fold_left (fun acc w => acc + wing_num_sections w)%nat (lookup_wings pl) 0%nat.
  (** geometry.py 261-273: Airplane.get_wingsegments *)
  Definition wingsegments (pl : airplane T) : list (segment T) :=
    flat_map wing_segments (lookup_wings pl).

  (** geometry.py 373-391: Airplane.cg_location *)
  Definition cg_upd (old : T) (c : option T) : T :=
    match c with Some v => if ntruthy v then v else old | None => old end.
  Definition cg_location (x y z : option T) (pl : airplane T) : airplane T :=
    MkAirplane (a_name pl) (a_wings pl) (a_store pl) (a_props pl)
               (V3 (cg_upd (vx (a_cg pl)) x) (cg_upd (vy (a_cg pl)) y) (cg_upd (vz (a_cg pl)) z))
               (a_long_ref pl) (a_lat_ref pl) (a_position pl) (a_units pl).

  (** geometry.py 393-406: Airplane.set_reference_lengths *)
  Definition set_reference_lengths (lateral longitudinal : option T) (pl : airplane T) : airplane T :=
    MkAirplane (a_name pl) (a_wings pl) (a_store pl) (a_props pl) (a_cg pl)
               longitudinal lateral (a_position pl) (a_units pl).

  (** geometry.py 408-430: Airplane.get_position.  Simplification: a given
      position is a list of three numbers (always truthy). *)
  Definition airplane_position (pl : airplane T) : vec3 T :=
    match a_position pl with Some p => p | None => vzero end.

  (** geometry.py 359-371: get_units *)
  Definition get_units (pl : airplane T) : res (option string) :=
    match a_units pl with Some u => Ok u | None => Err AttributeError end.

  (** *** Positions *)

  Definition tan_sc (x : T) : T := nsin x / ncos x.

  (** geometry.py 847-861 and 863-877: the position of an end of the segment
      relative to the parent's connection point; [a - b] keeps the order in which
      the code updates the components. *)
  Definition seg_local_left (s : segment T) : vec3 T :=
    let d := sg_delta s in
    match sg_side s with
    | SLeft =>
        let sweep := nrad (sg_sweep s) in
        let dih := nrad (sg_dihedral s) in
        V3 (vx d - sg_span s * nsin sweep / ncos sweep)
           (vy d - sg_span s * ncos dih - sg_yoffset s)
           (vz d - sg_span s * nsin dih)
    | SRight => V3 (vx d) (vy d + sg_yoffset s) (vz d)
    end.
  Definition seg_local_right (s : segment T) : vec3 T :=
    let d := sg_delta s in
    match sg_side s with
    | SRight =>
        let sweep := nrad (sg_sweep s) in
        let dih := nrad (sg_dihedral s) in
        V3 (vx d - sg_span s * nsin sweep / ncos sweep)
           (vy d + sg_span s * ncos dih + sg_yoffset s)
           (vz d - sg_span s * nsin dih)
    | SLeft => V3 (vx d) (vy d - sg_yoffset s) (vz d)
    end.

  (** geometry.py 830-885 and 567-587: WingSegment.get_position /
      _get_parent_position / Wing.get_position / Airplane.get_position.  Each
      unit of fuel is one segment visited. *)
  Fixpoint seg_position (fuel : nat) (pl : airplane T) (s : segment T) (at_ : string)
    : res (vec3 T) :=
    match fuel with
    | O => Err OutOfFuel
    | S f =>
        let parent_pos :=
          match sg_parent s with
          | PNone => Ok vzero
          | PAirplane => Ok (airplane_position pl)
          | PWing id =>
              match nth_error (a_store pl) id with
              | None => Err AttributeError
              | Some w =>
                  if String.eqb (sg_connect_at s) "left_tip" then
                    match w_left w with
                    | Some q => seg_position f pl q (sg_connect_at s)
                    | None => Err AttributeError
                    end
                  else if String.eqb (sg_connect_at s) "right_tip" then
                    match w_right w with
                    | Some q => seg_position f pl q (sg_connect_at s)
                    | None => Err AttributeError
                    end
                  else Err RuntimeError
              end
          end in
        if String.eqb at_ "left_tip" then
          rlet p := parent_pos in Ok (vadd (seg_local_left s) p)
        else if String.eqb at_ "right_tip" then
          rlet p := parent_pos in Ok (vadd (seg_local_right s) p)
        else Err RuntimeError
    end.

  (** *** Prop *)

  (** geometry.py 1046-1067: Prop.__init__ and _unpack *)
  Definition make_prop (name : string) (dims : kwargs) : res (prop T) :=
    rlet pos := pvec3 (dgetd dims "position" (v3list vzero)) in
    rlet el := pidxn (dgetd dims "orientation" (VList [VNum n0; VNum n0])) 0 in
    rlet he := pidxn (dgetd dims "orientation" (VList [VNum n0; VNum n0])) 1 in
    rlet nodes := pnat (dgetd dims "nodes" (VInt 100)) in
    rlet dia := pnum (dgetd dims "diameter" (VNum n1)) in
    rlet hub := pnum (dgetd dims "hub_diameter" (VNum (ndec 1 1 * dia))) in
    rlet bl := pnat (dgetd dims "num_of_blades" (VInt 2)) in
    rlet pi := pdict (dgetd dims "pitch_info" (VDict [("type", VStr "default")])) in
    rlet ci := pdict (dgetd dims "chord_info" (VDict [("type", VStr "default")])) in
    rlet mo := pdict (dgetd dims "electric_motor" (VDict [])) in
    Ok (MkProp name pos el he nodes dia hub bl (dgetd dims "rot_dir" (VNum n1)) pi ci mo []).

  (** geometry.py 316-346: Airplane.add_prop *)
  Definition add_prop (name : string) (dims : kwargs) : st (airplane T) string :=
    fun pl =>
      match make_prop name dims with
      | Err e => (Err e, pl)
      | Ok p => (Ok name, set_props pl (dset (a_props pl) name p))
      end.

  (** geometry.py 1069-1110: Prop.airfoil(name, **properties) on the propeller
      stored under [pname] (simplification: a propeller object is referred to by
      its name; a propeller replaced under the same name is unreachable). *)
  Definition prop_airfoil (pname afname : string) (props : kwargs) : st (airplane T) (airfoil T) :=
    fun pl =>
      match dget (a_props pl) pname with
      | None => (Err AttributeError, pl)
      | Some p =>
          match make_airfoil afname props with
          | Err e => (Err e, pl)
          | Ok af =>
              (Ok af, set_props pl (dset (a_props pl) pname
                 (MkProp (pr_name p) (pr_position p) (pr_elevation p) (pr_heading p) (pr_nodes p)
                         (pr_diameter p) (pr_hub p) (pr_blades p) (pr_rot_dir p) (pr_pitch p)
                         (pr_chord p) (pr_motor p) (dset (pr_airfoils p) afname af))))
          end
      end.

  (** Python's [v == "s"] and [v == x.] for a float literal *)
  Definition peq_str (v : pyval) (s : string) : bool :=
    match v with VStr t => String.eqb t s | _ => false end.
  Definition peq_int (v : pyval) (z : Z) : bool :=
    match v with
    | VInt y => Z.eqb y z
    | VNum x => x =? nint z
    | VBool b => Z.eqb (if b then 1 else 0)%Z z
    | _ => false
    end.

  (** geometry.py 1187-1192: Prop.get_rot_dir *)
  Definition rot_dir (v : pyval) : T :=
    if peq_str v "CCW" || peq_str v "ccw" || peq_int v 1 then n1
    else if peq_str v "CW" || peq_str v "cw" || peq_int v (-1) then nint (-1)
    else n1.

  (** *** Building from a file *)

  (** geometry.py 98-106: Airplane._check_units *)
  Definition check_units (v : pyval) : res (option string) :=
    match v with
    | VNone => Ok None
    | VStr u =>
        if String.eqb u "English" || String.eqb u "english" then Ok (Some "English")
        else if String.eqb u "SI" || String.eqb u "si" || String.eqb u "Si" then Ok (Some "SI")
        else Err RuntimeError
    | _ => Err TypeError                      (* units + "..." *)
    end.

  (** Equality of hashable values used as wing IDs *)
  Definition pid_eqb (a b : pyval) : bool :=
    match a, b with
    | VStr s, VStr t => String.eqb s t
    | VInt y, VInt z => Z.eqb y z
    | VInt y, VNum x => x =? nint y
    | VNum x, VInt y => x =? nint y
    | VNum x, VNum y => x =? y
    | VBool b, VBool c => Bool.eqb b c
    | VBool b, VInt z | VInt z, VBool b => Z.eqb (if b then 1 else 0)%Z z
    | VBool b, VNum x | VNum x, VBool b => x =? nint (if b then 1 else 0)%Z
    | VNone, VNone => true
    | _, _ => false
    end.
  Definition hashable (v : pyval) : bool :=
    match v with VList _ | VDict _ => false | _ => true end.

  (** A Python dict keyed by wing IDs: the newest entry for a key wins *)
  Fixpoint id_lookup (m : list (pyval * string)) (k : pyval) : option string :=
    match m with
    | [] => None
    | (k', n) :: r => if pid_eqb k k' then Some n else id_lookup r k
    end.

  Definition connections := dict (option string * string).

  (** geometry.py 108-120: Airplane._map_wing_connections *)
  Fixpoint map_connections (ws : kwargs) (ids : list (pyval * string)) (c : connections)
    : res connections :=
    match ws with
    | [] => Ok c
    | (wname, wd) :: r =>
        rlet own := pget wd "ID" in
        if negb (hashable own) then Err TypeError else
        let ids := (own, wname) :: ids in
        rlet cn := pget wd "connect" in
        rlet pid := pget cn "ID" in
        if peq_int pid 0 then map_connections r ids (dset c wname (None, "tip"))
        else if negb (hashable pid) then Err TypeError else
             match id_lookup ids pid with
             | None => Err KeyError
             | Some pn =>
                 rlet loc := pgets cn "location" in
                 map_connections r ids (dset c wname (Some pn, loc))
             end
    end.

  (** geometry.py 144-155 etc.: the keyword arguments copied from "properties" *)
  Definition airfoil_keys : list string :=
    ["alpha_L0"; "CL_alpha"; "Cm_L0"; "Cm_alpha"; "CD0"; "CD0_L"; "CD0_L2"; "CL_max"].
  Fixpoint copy_keys (keys : list string) (v : pyval) : res kwargs :=
    match keys with
    | [] => Ok []
    | k :: ks => rlet x := pget v k in rlet r := copy_keys ks v in Ok ((k, x) :: r)
    end.

  (** Key/keyword pairs read for a wing, in evaluation order (124-139): first
      level keys and keys under "connect". *)
  Definition wing_dims (wd : pyval) : res (string * kwargs) :=
    rlet side := pgets wd "side" in
    rlet cn := pget wd "connect" in
    rlet dx := pget cn "dx" in
    rlet dy := pget cn "dy" in
    rlet dz := pget cn "dz" in
    rlet im := pget wd "is_main" in
    rlet yo := pget cn "yoffset" in
    rlet sp := pget wd "span" in
    rlet sw := pget wd "sweep" in
    rlet di := pget wd "dihedral" in
    rlet mo := pget wd "mounting_angle" in
    rlet wa := pget wd "washout" in
    rlet rc := pget wd "root_chord" in
    rlet tc := pget wd "tip_chord" in
    rlet gr := pget wd "grid" in
    Ok (side, [("position", VList [dx; dy; dz]); ("is_main", im); ("yoffset", yo);
               ("semispan", sp); ("sweep", sw); ("dihedral", di); ("mount_angle", mo);
               ("washout", wa); ("root_chord", rc); ("tip_chord", tc); ("grid", gr)]).

  (** geometry.py 122-188: Airplane._add_wing_from_inputfile *)
  Definition add_wing_from_file (c : connections) (wname : string) (wd : pyval)
    : st (airplane T) unit :=
    conn <- slift (dlookup c wname) ;;
    sd <- slift (wing_dims wd) ;;
    w <- add_wing wname conn (fst sd) (snd sd) ;;
    afv <- slift (pget wd "airfoils") ;;
    afs <- slift (pdict afv) ;;
    (match afs with
     | (n_root, v_root) :: (n_tip, v_tip) :: _ =>
         root <- slift (pget v_root "properties") ;;
         tip <- slift (pget v_tip "properties") ;;
         rk <- slift (copy_keys airfoil_keys root) ;;
         wing_airfoil w n_root "root" rk ;;;
         tk <- slift (copy_keys airfoil_keys tip) ;;
         wing_airfoil w n_tip "tip" tk ;;;
         sret tt
     | [(n_root, v_root)] =>
         root <- slift (pget v_root "properties") ;;
         rk <- slift (copy_keys airfoil_keys root) ;;
         wing_airfoil w n_root "both" rk ;;;
         sret tt
     | [] => sraise IndexError
     end) ;;;
    ctl <- slift (pget wd "control") ;;
    if ptruthy ctl then
      s0 <- slift (pget ctl "span_root") ;;
      s1 <- slift (pget ctl "span_tip") ;;
      c0 <- slift (pget ctl "chord_root") ;;
      c1 <- slift (pget ctl "chord_tip") ;;
      mx <- slift (pget ctl "mix") ;;
      se <- slift (pget ctl "is_sealed") ;;
      wing_control_surface w [("percent_span", VList [s0; s1]);
                              ("percent_chord", VList [c0; c1]);
                              ("mix", mx); ("sealed", se)] ;;;
      sret tt
    else sret tt.

  (** geometry.py 190-206: the keyword arguments of add_prop.  "airfoils" is
      passed too but Prop._unpack ignores it. *)
  Definition prop_dims (pd : pyval) : res kwargs :=
    rlet po := pget pd "position" in
    rlet dx := pget po "dx" in
    rlet dy := pget po "dy" in
    rlet dz := pget po "dz" in
    rlet ori := pget pd "orientation" in
    rlet el := pget ori "elevation_angle" in
    rlet he := pget ori "heading_angle" in
    rlet nodes := pget pd "radial_nodes" in
    rlet dia := pget pd "diameter" in
    rlet hub := pget pd "hub_diameter" in
    rlet nb := pget pd "num_of_blades" in
    rlet rd := pget pd "rotation_direction" in
    rlet pi := pget pd "pitch" in
    rlet ci := pget pd "chord" in
    rlet pdd := pdict pd in
    rlet afs := pget pd "airfoils" in
    Ok [("position", VList [dx; dy; dz]); ("orientation", VList [el; he]); ("nodes", nodes);
        ("diameter", dia); ("hub_diameter", hub); ("num_of_blades", nb); ("rot_dir", rd);
        ("pitch_info", pi); ("chord_info", ci);
        ("electric_motor", dgetd pdd "electric_motor" (VDict [])); ("airfoils", afs)].

  (** geometry.py 190-245: Airplane._add_prop_from_inputfile *)
  Definition add_prop_from_file (pname : string) (pd : pyval) : st (airplane T) unit :=
    dims <- slift (prop_dims pd) ;;
    add_prop pname dims ;;;
    afv <- slift (pget pd "airfoils") ;;
    afs <- slift (pdict afv) ;;
    match afs with
    | (n_root, v_root) :: (n_tip, v_tip) :: _ =>
        root <- slift (pget v_root "properties") ;;
        tip <- slift (pget v_tip "properties") ;;
        rk <- slift (copy_keys airfoil_keys root) ;;
        prop_airfoil pname n_root (("span_position", VStr "root") :: rk) ;;;
        tk <- slift (copy_keys airfoil_keys tip) ;;
        prop_airfoil pname n_tip (("span_position", VStr "tip") :: tk) ;;;
        sret tt
    | [(n_root, v_root)] =>
        root <- slift (pget v_root "properties") ;;
        rk <- slift (copy_keys airfoil_keys root) ;;
        prop_airfoil pname n_root (("span_position", VNone) :: rk) ;;;
        sret tt
    | [] => sraise IndexError
    end.

  Fixpoint siter {S A} (f : A -> st S unit) (l : list A) : st S unit :=
    match l with
    | [] => sret tt
    | x :: r => f x ;;; siter f r
    end.

  Definition set_name (n : string) (pl : airplane T) : airplane T :=
    MkAirplane n (a_wings pl) (a_store pl) (a_props pl) (a_cg pl) (a_long_ref pl) (a_lat_ref pl)
               (a_position pl) (a_units pl).
  Definition set_units (u : option string) (pl : airplane T) : airplane T :=
    MkAirplane (a_name pl) (a_wings pl) (a_store pl) (a_props pl) (a_cg pl) (a_long_ref pl)
               (a_lat_ref pl) (a_position pl) (Some u).
  Definition set_long (x : option T) (pl : airplane T) : airplane T :=
    MkAirplane (a_name pl) (a_wings pl) (a_store pl) (a_props pl) (a_cg pl) x
               (a_lat_ref pl) (a_position pl) (a_units pl).
  Definition set_lat (x : option T) (pl : airplane T) : airplane T :=
    MkAirplane (a_name pl) (a_wings pl) (a_store pl) (a_props pl) (a_cg pl) (a_long_ref pl)
               x (a_position pl) (a_units pl).

  (** geometry.py 77-96: Airplane._buildfrominputfile, after JSON parsing *)
  Definition build_from_file (data : pyval) : st (airplane T) unit :=
    pln <- slift (pget data "plane") ;;
    nm <- slift (pgets pln "name") ;;
    smod (set_name nm) ;;;
    x <- slift (pget pln "CGx") ;;
    y <- slift (pget pln "CGy") ;;
    z <- slift (pget pln "CGz") ;;
    ox <- slift (pnum_opt x) ;;
    oy <- slift (pnum_opt y) ;;
    oz <- slift (pnum_opt z) ;;
    smod (cg_location ox oy oz) ;;;
    rf <- slift (pget data "reference") ;;
    lo <- slift (pget rf "longitudinal_length") ;;
    olo <- slift (pnum_opt lo) ;;
    smod (set_long olo) ;;;
    la <- slift (pget rf "lateral_length") ;;
    ola <- slift (pnum_opt la) ;;
    smod (set_lat ola) ;;;
    cnd <- slift (pget data "condition") ;;
    cd <- slift (pdict cnd) ;;
    u <- slift (check_units (dgetd cd "units" VNone)) ;;
    smod (set_units u) ;;;
    dd <- slift (pdict data) ;;
    (match dget dd "wings" with
     | Some wv =>
         ws <- slift (pdict wv) ;;
         conns <- slift (map_connections ws [] []) ;;
         siter (fun e => add_wing_from_file conns (fst e) (snd e)) ws
     | None => sret tt
     end) ;;;
    (match dget dd "propellers" with
     | Some pv =>
         ps <- slift (pdict pv) ;;
         siter (fun e => add_prop_from_file (fst e) (snd e)) ps
     | None => sret tt
     end).
End Geometry.
Arguments seg_position {T N} fuel pl s at_ : simpl never.
