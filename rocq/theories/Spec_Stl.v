(** Vocabulary for the properties of the STL output (C57-C60, C62-C64).  Independent of the
    functions that model the code, except for the data records and the record of one
    assignment. *)
From Coq Require Import Reals ZArith String Ascii Bool Arith List Permutation Sorted.
From Verif Require Import Base Num Geometry Grid Spec_Grid PropModel MU Stl.
Import ListNotations.
Set Implicit Arguments.

(** *** Surfaces *)
Section Mesh.
  Context {T : Type}.

  (** The two triangles of each cell between two neighbouring rows of points; [flip]
      reverses their orientation. *)
  Definition cell (flip : bool) (p p' q q' : vec3 T) : list (triangle T) :=
    if flip then [(p, q, p'); (p', q, q')] else [(p, p', q); (p', q', q)].
  Fixpoint band (flip : bool) (a b : list (vec3 T)) : list (triangle T) :=
    match a, b with
    | p :: ((p' :: _) as a'), q :: ((q' :: _) as b') => cell flip p p' q q' ++ band flip a' b'
    | _, _ => []
    end.
  (** A surface given by rows of points *)
  Fixpoint surface (flip : bool) (rows : list (list (vec3 T))) : list (triangle T) :=
    match rows with
    | a :: ((b :: _) as rest) => band flip a b ++ surface flip rest
    | _ => []
    end.
  Definition rectangular (count n : nat) (rows : list (list (vec3 T))) : Prop :=
    List.length rows = count /\ Forall (fun r => List.length r = n) rows.

  (** The assignments that store the triangles one after the other from slot [k]: each corner
      of each slot exactly once. *)
  Fixpoint stores (k : Z) (l : list (triangle T)) : list (write T) :=
    match l with
    | [] => []
    | (a, b, c) :: r => MkWr k 0 a :: MkWr k 1 b :: MkWr k 2 c :: stores (k + 1) r
    end.
End Mesh.

(** *** Airfoil names *)
Definition naca_name (name : string) : Prop :=
  exists rest, (name = "NACA" ++ rest \/ name = "naca" ++ rest)%string.
(** The digits a name stands for on its own *)
Inductive stands_for : string -> string -> Prop :=
| own_digits name rest : (name = "NACA" ++ rest \/ name = "naca" ++ rest)%string ->
                         String.length rest = 4 -> stands_for name rest
| other_name name : ~ naca_name name -> stands_for name "2412".
Definition irregular (name : string) : Prop := naca_name name /\ String.length name <> 8.
(** The digits used for the newest name of a history (newest first): those of the newest name
    which stands for something *)
Inductive drawn : list string -> string -> Prop :=
| drawn_own name older d : stands_for name d -> drawn (name :: older) d
| drawn_older name older d : irregular name -> drawn older d -> drawn (name :: older) d.

(** *** Outlines and vertices *)
Local Open Scope R_scope.

Definition decimal_digit (k : nat) : ascii := ascii_of_nat (48 + k).
(** maximum camber, its position and the thickness as fractions of the chord *)
Record profile : Type := MkProfile { pf_camber : R; pf_at : R; pf_thick : R }.
Inductive four_digits : string -> profile -> Prop :=
| four_digits_intro a b c d : (a < 10)%nat -> (b < 10)%nat -> (c < 10)%nat -> (d < 10)%nat ->
    four_digits (String (decimal_digit a) (String (decimal_digit b)
                  (String (decimal_digit c) (String (decimal_digit d) EmptyString))))
      (MkProfile (INR a / 100) (INR b / 10) (INR (10 * c + d) / 100)).
Definition named_profile (name : string) (f : profile) : Prop :=
  exists d, stands_for name d /\ four_digits d f.

(** The mean line of the NACA four-digit sections *)
Definition mean_line (f : profile) (x : R) : R :=
  let m := pf_camber f in let p := pf_at f in
  if Req_EM_T m 0 then 0 else if Req_EM_T p 0 then 0 else
  if Rlt_dec x p then m / (p * p) * (2 * p * x - x * x)
  else m / ((1 - p) * (1 - p)) * (1 - 2 * p + 2 * p * x - x * x).
(** The slope the outline is built with: aft of the maximum camber half the true one (C59) *)
Definition drawn_slope (f : profile) (x : R) : R :=
  let m := pf_camber f in let p := pf_at f in
  if Req_EM_T m 0 then 0 else if Req_EM_T p 0 then 0 else
  if Rlt_dec x p then 2 * m / (p * p) * (p - x) else m / ((1 - p) * (1 - p)) * (p - x).
Definition thickness (f : profile) (x : R) : R :=
  5 * pf_thick f * (2969 / 10000 * sqrt x - 1260 / 10000 * x - 3516 / 10000 * x ^ 2
                    + 2843 / 10000 * x ^ 3 - 1015 / 10000 * x ^ 4).
(** A point of the outline: [up] is 1 on the upper, -1 on the lower surface *)
Definition surface_point (f : profile) (up x : R) : R * R :=
  let phi := atan (drawn_slope f x) in
  (x - up * thickness f x * sin phi, mean_line f x + up * thickness f x * cos phi).
(** The outline runs from the trailing edge along the lower surface to the leading edge and
    back along the upper one; 50 points, [j] from 0 to 49. *)
Definition outline_angle (j : nat) : R := - PI + 2 * PI * INR j / 49.
Definition shape (f : profile) (j : nat) : R * R :=
  surface_point f (if Nat.ltb j 25 then -1 else 1) ((1 - cos (outline_angle j)) / 2).

Definition mix_shape (l r : R * R) (t : R) : R * R :=
  (between (fst l) (fst r) t, between (snd l) (snd r) t).
(** A point of a wing section: the quarter chord is the control point *)
Definition wing_vertex (s : section R) (q : R * R) : vec3 R :=
  vadd (s_r s) (vscale (s_c s) (vadd (vscale (fst q - 1 / 4) (s_ua s)) (vscale (snd q) (s_un s)))).

(** Sideways and downward directions of a propeller with elevation and heading angles *)
Definition prop_side (g : pgeom R) : vec3 R := V3 (- sin (pg_gamma g)) (cos (pg_gamma g)) 0.
Definition prop_down (g : pgeom R) : vec3 R :=
  V3 (sin (pg_theta g) * cos (pg_gamma g)) (sin (pg_theta g) * sin (pg_gamma g)) (cos (pg_theta g)).
(** Along blade [b] of [k], and perpendicular to it in the plane of rotation *)
Definition blade_angle (k b : nat) : R := 2 * PI * INR b / INR k.
Definition along_blade (g : pgeom R) (b : nat) : vec3 R :=
  let phi := blade_angle (pg_k g) b in
  vsub (vscale (sin phi) (prop_side g)) (vscale (cos phi) (prop_down g)).
Definition across_blade (g : pgeom R) (b : nat) : vec3 R :=
  let phi := blade_angle (pg_k g) b in
  vadd (vscale (cos phi) (prop_side g)) (vscale (sin phi) (prop_down g)).
(** A point of a blade section with chord pitch angle [w]: the quarter chord is on the blade
    axis, at the radius of the station *)
Definition blade_vertex (g : pgeom R) (b : nat) (s : station R) (w : R) (q : R * R) : vec3 R :=
  let x := (1 / 4 - fst q) * z_cb s in
  let y := snd q * z_cb s in
  vadd (pg_pos g)
   (vadd (vscale (z_r s) (along_blade g b))
    (vadd (vscale (x * sin w + y * cos w) (pg_forward g))
          (vscale (pg_rot g * (x * cos w - y * sin w)) (across_blade g b)))).

(** *** Drawing a whole airplane *)
(** For each name of a list, that name and the earlier ones, newest first *)
Fixpoint histories (older : list string) (l : list string) : list (list string) :=
  match l with
  | [] => []
  | name :: r => (name :: older) :: histories (name :: older) r
  end.
Definition drawn_profile (h : list string) (f : profile) : Prop :=
  exists d, drawn h d /\ four_digits d f.
(** The airfoil names at the left and right end of a segment *)
Definition left_name {T} (sg : segment T) : string :=
  af_name (match sg_side sg with SLeft => sg_tip_af sg | SRight => sg_root_af sg end).
Definition right_name {T} (sg : segment T) : string :=
  af_name (match sg_side sg with SLeft => sg_root_af sg | SRight => sg_tip_af sg end).

(** The broken line through points with increasing abscissae, constant outside *)
Fixpoint broken_line (pts : list (R * R)) (z : R) : R :=
  match pts with
  | [] => 0
  | (x0, y0) :: r =>
      match r with
      | [] => y0
      | (x1, y1) :: _ =>
          if Rle_dec z x0 then y0
          else if Rle_dec z x1 then between y0 y1 ((z - x0) / (x1 - x0))
          else broken_line r z
      end
  end.
Definition broken_shape (pr : list (R * profile)) (j : nat) (z : R) : R * R :=
  (broken_line (map (fun q => (fst q, fst (shape (snd q) j))) pr) z,
   broken_line (map (fun q => (fst q, snd (shape (snd q) j))) pr) z).

(** Where an airfoil of a blade is: at the first or last station, or at the number given *)
Definition airfoil_at {T} {N : num_ops T} (zs : list T) (a : airfoil T) (x : T) : Prop :=
  match af_span_position a with
  | VStr s => In s ["root"; "Root"; "ROOT"]%string /\ hd_error zs = Some x \/
              In s ["tip"; "Tip"; "TIP"]%string /\ hd_error (rev zs) = Some x
  | VInt z => x = nint z
  | VNum y => x = y
  | VBool b => x = nint (if b then 1 else 0)
  | _ => False
  end.
(** The airfoils of a blade with their places, from the hub to the tip.  Without airfoils in
    the input: NACA2412; a single one holds everywhere. *)
Definition placed_on (p : prop R) (zs : list R) (placed : list (R * airfoil R)) : Prop :=
  match pr_airfoils p with
  | [] => placed = [(0, default_airfoil "NACA2412")]
  | [(_, a)] => placed = [(0, a)]
  | l => Permutation (map snd placed) (map snd l) /\
         Forall (fun q => airfoil_at zs (snd q) (fst q)) placed /\
         StronglySorted (fun q q' => fst q < fst q') placed
  end.
Definition blade_airfoils (p : prop R) (zs : list R) (afs : list (R * string)) : Prop :=
  exists placed, placed_on p zs placed /\ afs = map (fun q => (fst q, af_name (snd q))) placed.

Definition wing_mesh (g : grid R) (wl wr : list profile) : list (triangle R) :=
  flat_map (fun k =>
    surface false (map (fun s => map (fun j =>
        wing_vertex s (mix_shape (shape (nth k wl (MkProfile 0 0 0)) j) (shape (nth k wr (MkProfile 0 0 0)) j) (s_sp s)))
      (seq 0 50)) (block_of g k)))
    (seq 0 (List.length (g_segments g))).
(** [w s]: the pitch angle of the chord line at a station *)
Definition propeller_mesh (w : station R -> R) (g : pgeom R) (pr : list (R * profile)) : list (triangle R) :=
  flat_map (fun b =>
    surface (if Req_EM_T (pg_rot g) 1 then false else true)
      (map (fun s => map (fun j => blade_vertex g b s (w s) (broken_shape pr j (z_zeta s))) (seq 0 50))
           (pg_stations g)))
    (seq 0 (pg_k g)).
(** The wings first, then the propellers *)
Definition airplane_mesh (w : station R -> R) (g : option (grid R)) (props : list (pgeom R))
           (wl wr : list profile) (bl : list (list (R * profile))) : list (triangle R) :=
  (match g with Some g => wing_mesh g wl wr | None => [] end) ++
  concat (map (fun q => propeller_mesh w (fst q) (snd q)) (combine props bl)).
