(** What an airplane description file must contain and which API calls it stands for
    (C16).  Written from the documented file layout, not from the loader. *)
From Coq Require Import ZArith String List.
From Verif Require Import Base Num Geometry Api.
Import ListNotations.
Set Implicit Arguments.
Local Open Scope string_scope.
Local Open Scope list_scope.

Section File.
  Context {T : Type} {N : num_ops T}.
  Notation pyval := (pyval T).

  (** ** Well-formed values *)
  Definition field (v : pyval) (k : string) : option pyval :=
    match v with VDict d => dget d k | _ => None end.
  Definition is_number (v : pyval) : Prop :=
    match v with VInt _ | VNum _ | VBool _ => True | _ => False end.
  Definition is_number_or_none (v : pyval) : Prop := v = VNone \/ is_number v.
  Definition is_count (v : pyval) : Prop := exists z, v = VInt z /\ (0 <= z)%Z.
  Definition is_string (v : pyval) : Prop := exists s, v = VStr s.
  Definition is_dict (v : pyval) : Prop := exists d, v = VDict d.
  (** key [k] is present in [v] and its value satisfies [P] *)
  Definition with_key (v : pyval) (k : string) (P : pyval -> Prop) : Prop :=
    exists x, field v k = Some x /\ P x.
  Definition anything (_ : pyval) : Prop := True.

  (** ** Required keys *)
  Definition good_airfoil (v : pyval) : Prop :=
    with_key v "properties" (fun pr =>
      forall k, In k ["alpha_L0"; "CL_alpha"; "Cm_L0"; "Cm_alpha"; "CD0"; "CD0_L"; "CD0_L2"; "CL_max"] ->
                with_key pr k is_number).
  (** at least one airfoil; the first two must be complete, others are not looked at *)
  Definition good_airfoils (v : pyval) : Prop :=
    exists n a r, v = VDict ((n, a) :: r) /\ good_airfoil a /\
      match r with (_, b) :: _ => good_airfoil b | [] => True end.
  Definition good_mix (v : pyval) : Prop :=
    is_dict v /\ forall k x, In k ["aileron"; "elevator"; "rudder"; "flap"] -> field v k = Some x -> is_number x.
  (** an empty control entry (None, {}, 0, ...) means no control surface *)
  Definition good_control (v : pyval) : Prop :=
    ptruthy v = false \/
    (with_key v "span_root" is_number /\ with_key v "span_tip" is_number /\
     with_key v "chord_root" is_number /\ with_key v "chord_tip" is_number /\
     with_key v "mix" good_mix /\ with_key v "is_sealed" anything).
  Definition good_wing (v : pyval) : Prop :=
    with_key v "side" (fun s => s = VStr "both" \/ s = VStr "left" \/ s = VStr "right") /\
    with_key v "connect" (fun c =>
      with_key c "dx" is_number /\ with_key c "dy" is_number /\ with_key c "dz" is_number /\
      with_key c "yoffset" is_number) /\
    with_key v "is_main" anything /\ with_key v "span" is_number /\ with_key v "sweep" is_number /\
    with_key v "dihedral" is_number /\ with_key v "mounting_angle" is_number /\
    with_key v "washout" is_number /\ with_key v "root_chord" is_number /\
    with_key v "tip_chord" is_number /\ with_key v "grid" is_count /\
    with_key v "airfoils" good_airfoils /\ with_key v "control" good_control.

  (** the parent of a wing: the airplane (ID 0) or the latest wing of [before] (the
      wings listed up to and including this one) with that ID *)
  Definition has_id (x : pyval) (e : string * pyval) : bool :=
    match field (snd e) "ID" with Some y => pid_eqb x y | None => false end.
  Definition parent_name (before : dict pyval) (x : pyval) : option string :=
    option_map fst (find (has_id x) (rev before)).
  Definition good_parent (before : dict pyval) (v : pyval) : Prop :=
    with_key v "ID" (fun i => hashable i = true) /\
    with_key v "connect" (fun c => with_key c "ID" (fun x =>
      peq_int x 0 = true \/
      hashable x = true /\ parent_name before x <> None /\ with_key c "location" is_string)).
  (** every wing is complete and its parent is listed no later than itself *)
  Definition good_wings (ws : dict pyval) : Prop :=
    forall before n v after, ws = (before ++ (n, v) :: after)%list ->
      good_wing v /\ good_parent (before ++ [(n, v)])%list v.

  Definition good_prop (v : pyval) : Prop :=
    with_key v "position" (fun p => with_key p "dx" is_number /\ with_key p "dy" is_number /\ with_key p "dz" is_number) /\
    with_key v "orientation" (fun o => with_key o "elevation_angle" is_number /\ with_key o "heading_angle" is_number) /\
    with_key v "radial_nodes" is_count /\ with_key v "diameter" is_number /\
    with_key v "hub_diameter" is_number /\ with_key v "num_of_blades" is_count /\
    with_key v "rotation_direction" anything /\ with_key v "pitch" is_dict /\ with_key v "chord" is_dict /\
    (forall m, field v "electric_motor" = Some m -> is_dict m) /\
    with_key v "airfoils" good_airfoils.

  Definition good_units (v : pyval) : Prop :=
    exists d, v = VDict d /\
      (dget d "units" = None \/
       exists u, dget d "units" = Some u /\
         In u [VNone; VStr "English"; VStr "english"; VStr "SI"; VStr "si"; VStr "Si"]).

  Definition good_file (data : pyval) : Prop :=
    with_key data "plane" (fun p =>
      with_key p "name" is_string /\ with_key p "CGx" is_number_or_none /\
      with_key p "CGy" is_number_or_none /\ with_key p "CGz" is_number_or_none) /\
    with_key data "reference" (fun r =>
      with_key r "longitudinal_length" is_number_or_none /\ with_key r "lateral_length" is_number_or_none) /\
    with_key data "condition" good_units /\
    (forall wv, field data "wings" = Some wv -> exists ws, wv = VDict ws /\ good_wings ws) /\
    (forall pv, field data "propellers" = Some pv ->
       exists ps, pv = VDict ps /\ forall n v, In (n, v) ps -> good_prop v).

  (** ** The API calls a file stands for *)
  Definition at_ (v : pyval) (k : string) : pyval := match field v k with Some x => x | None => VNone end.
  Definition num_of (v : pyval) : option T :=
    match v with VInt z => Some (nint z) | VNum x => Some x
               | VBool b => Some (if b then n1 else n0) | _ => None end.
  Definition str_of (v : pyval) : string := match v with VStr s => s | _ => "" end.
  Definition entries (v : pyval) : dict pyval := match v with VDict d => d | _ => [] end.

  Definition airfoil_args (v : pyval) : dict pyval :=
    map (fun k => (k, at_ (at_ v "properties") k))
        ["alpha_L0"; "CL_alpha"; "Cm_L0"; "Cm_alpha"; "CD0"; "CD0_L"; "CD0_L2"; "CL_max"].
  (** wing.airfoil(name, end_="both"/"root"/"tip", ...) *)
  Definition airfoil_calls (id : nat) (v : pyval) : list (api_call T) :=
    match entries v with
    | [] => []
    | [(n, a)] => [CAirfoil id n "both" (airfoil_args a)]
    | (n, a) :: (m, b) :: _ => [CAirfoil id n "root" (airfoil_args a); CAirfoil id m "tip" (airfoil_args b)]
    end.
  (** wing.control_surface(...) *)
  Definition control_calls (id : nat) (v : pyval) : list (api_call T) :=
    if ptruthy v then
      [CControl id [("percent_span", VList [at_ v "span_root"; at_ v "span_tip"]);
                    ("percent_chord", VList [at_ v "chord_root"; at_ v "chord_tip"]);
                    ("mix", at_ v "mix"); ("sealed", at_ v "is_sealed")]]
    else [].
  (** the connect_to argument *)
  Definition connect_arg (before : dict pyval) (v : pyval) : option string * string :=
    let c := at_ v "connect" in
    if peq_int (at_ c "ID") 0 then (None, "tip")
    else (parent_name before (at_ c "ID"), str_of (at_ c "location")).
  Definition wing_calls (before : dict pyval) (n : string) (v : pyval) : list (api_call T) :=
    let c := at_ v "connect" in
    let id := List.length before in
    (CAddWing n (connect_arg (before ++ [(n, v)]) v) (str_of (at_ v "side"))
      [("position", VList [at_ c "dx"; at_ c "dy"; at_ c "dz"]); ("is_main", at_ v "is_main");
       ("yoffset", at_ c "yoffset"); ("semispan", at_ v "span"); ("sweep", at_ v "sweep");
       ("dihedral", at_ v "dihedral"); ("mount_angle", at_ v "mounting_angle");
       ("washout", at_ v "washout"); ("root_chord", at_ v "root_chord");
       ("tip_chord", at_ v "tip_chord"); ("grid", at_ v "grid")]
     :: airfoil_calls id (at_ v "airfoils") ++ control_calls id (at_ v "control"))%list.
  Fixpoint wings_calls (before ws : dict pyval) : list (api_call T) :=
    match ws with
    | [] => []
    | (n, v) :: r => (wing_calls before n v ++ wings_calls (before ++ [(n, v)]) r)%list
    end.

  Definition prop_calls (n : string) (v : pyval) : list (api_call T) :=
    let p := at_ v "position" in
    let o := at_ v "orientation" in
    (CAddProp n
      [("position", VList [at_ p "dx"; at_ p "dy"; at_ p "dz"]);
       ("orientation", VList [at_ o "elevation_angle"; at_ o "heading_angle"]);
       ("nodes", at_ v "radial_nodes"); ("diameter", at_ v "diameter");
       ("hub_diameter", at_ v "hub_diameter"); ("num_of_blades", at_ v "num_of_blades");
       ("rot_dir", at_ v "rotation_direction"); ("pitch_info", at_ v "pitch");
       ("chord_info", at_ v "chord");
       ("electric_motor", match field v "electric_motor" with Some m => m | None => VDict [] end);
       ("airfoils", at_ v "airfoils")]
     :: match entries (at_ v "airfoils") with
        | [] => []
        | [(m, a)] => [CPropAirfoil n m (("span_position", VNone) :: airfoil_args a)]
        | (m, a) :: (k, b) :: _ =>
            [CPropAirfoil n m (("span_position", VStr "root") :: airfoil_args a);
             CPropAirfoil n k (("span_position", VStr "tip") :: airfoil_args b)]
        end)%list.

  Definition file_calls (data : pyval) : list (api_call T) :=
    let p := at_ data "plane" in
    let r := at_ data "reference" in
    ([CCg (num_of (at_ p "CGx")) (num_of (at_ p "CGy")) (num_of (at_ p "CGz"));
      CRef (num_of (at_ r "lateral_length")) (num_of (at_ r "longitudinal_length"))]
     ++ wings_calls [] (entries (at_ data "wings"))
     ++ flat_map (fun e => prop_calls (fst e) (snd e)) (entries (at_ data "propellers")))%list.

  (** unit names are normalised; None when absent *)
  Definition file_units (data : pyval) : option string :=
    match at_ (at_ data "condition") "units" with
    | VStr u => Some (if orb (String.eqb u "English") (String.eqb u "english") then "English" else "SI")
    | _ => None
    end.
End File.
