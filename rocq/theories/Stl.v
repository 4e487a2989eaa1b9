(** Model of /repo/machup/outputstl.py and of MachUp.create_stl (MU.py 192-214).

    Not modelled: the STL file format and the normals numpy-stl computes when saving; the
    model ends with the contents of [plane_stl.vectors], the corners of the triangles. *)
From Coq Require Import ZArith String Ascii Bool Arith List.
From Verif Require Import Base Num Geometry Grid LLModel PropModel MU.
Import ListNotations.
Set Implicit Arguments.

(** Quaternions: the four-element lists and arrays of outputstl.py *)
Record quat (T : Type) : Type := Q4 { qw : T; qx : T; qy : T; qz : T }.
Arguments Q4 {T} qw qx qy qz.

Definition triangle (T : Type) : Type := (vec3 T * vec3 T * vec3 T)%type.

(** One assignment [plane_stl.vectors[slot][corner] = point] *)
Record write (T : Type) : Type := MkWr { wr_slot : Z; wr_corner : nat; wr_point : vec3 T }.

(** *** float(s) for strings of at most two characters *)
(** mantissa and number of decimals; None: ValueError.  Characters that Python counts as
    digits or white space outside ASCII are not modelled, nor is the sign of zero. *)
Definition is_space (c : ascii) : bool :=
  let n := nat_of_ascii c in
  (Nat.leb 9 n && Nat.leb n 13) || (Nat.leb 28 n && Nat.leb n 32).
Definition digit (c : ascii) : option Z :=
  let n := nat_of_ascii c in
  if Nat.leb 48 n && Nat.leb n 57 then Some (Z.of_nat (n - 48)) else None.
Fixpoint drop_spaces (l : list ascii) : list ascii :=
  match l with
  | [] => []
  | c :: r => if is_space c then drop_spaces r else l
  end.
(** digits with at most one dot: value so far, decimals so far, dot seen, digit seen *)
Fixpoint decimal (l : list ascii) (m e : Z) (dot seen : bool) : option (Z * Z) :=
  match l with
  | [] => if seen then Some (m, e) else None
  | c :: r =>
      match digit c with
      | Some d => decimal r (10 * m + d) (if dot then e + 1 else e) dot true
      | None => if (Ascii.eqb c ".") && negb dot then decimal r m e true seen else None
      end
  end.
Definition py_float (s : string) : option (Z * Z) :=
  let l := rev (drop_spaces (rev (drop_spaces (list_ascii_of_string s)))) in
  match l with
  | c :: r =>
      if Ascii.eqb c "-" then option_map (fun q => (- fst q, snd q)%Z) (decimal r 0 0 false false)
      else if Ascii.eqb c "+" then decimal r 0 0 false false
      else decimal l 0 0 false false
  | [] => None
  end.

Section Stl.
  Context {T : Type} {N : num_ops T}.
  Local Open Scope string_scope.
  Local Open Scope num_scope.

  (** *** Quaternions *)
  (** outputstl.py 246-260 *)
  Definition euler2quat (p t g : T) : quat T :=
    let cp := ncos (p / n2) in let ct := ncos (t / n2) in let cg := ncos (g / n2) in
    let sp := nsin (p / n2) in let st := nsin (t / n2) in let sg := nsin (g / n2) in
    Q4 (cp * ct * cg + sp * st * sg) (sp * ct * cg - cp * st * sg)
       (cp * st * cg + sp * ct * sg) (cp * ct * sg - sp * st * cg).
  (** outputstl.py 262-276 *)
  Definition body2fixed (v : vec3 T) (e : quat T) : vec3 T :=
    let x := vx v in let y := vy v in let z := vz v in
    let e0 := qw e in let ex := qx e in let ey := qy e in let ez := qz e in
    let To := x * ex + y * ey + z * ez in
    let Tx := x * e0 - y * ez + z * ey in
    let Ty := x * ez + y * e0 - z * ex in
    let Tz := - x * ey + y * ex + z * e0 in
    V3 (e0 * Tx + ex * To + ey * Tz - ez * Ty)
       (e0 * Ty - ex * Tz + ey * To + ez * Tx)
       (e0 * Tz + ex * Ty - ey * Tx + ez * To).
  (** outputstl.py 278-285 *)
  Definition quat_mult (a b : quat T) : quat T :=
    Q4 (qw a * qw b - qx a * qx b - qy a * qy b - qz a * qz b)
       (qw a * qx b + qx a * qw b + qy a * qz b - qz a * qy b)
       (qw a * qy b - qx a * qz b + qy a * qw b + qz a * qx b)
       (qw a * qz b + qx a * qy b - qy a * qx b + qz a * qw b).

  (** *** Airfoil outlines *)
  (** outputstl.py 46-49 and likewise 51-54, 111-114: the digits used for an airfoil name,
      [prev] being the value of the variable before (None: not assigned yet) *)
  Definition naca_of (prev : option string) (name : string) : option string :=
    let head := substring 0 4 name in
    if String.eqb head "NACA" || String.eqb head "naca" then
      if Nat.eqb (String.length name) 8 then Some (substring 4 4 name) else prev
    else Some "2412".

  (** float(airfoil[0]) and float(airfoil[2:4]) *)
  Definition to_float (s : string) : res T :=
    match py_float s with Some (m, e) => Ok (ndec m e) | None => Err ValueError end.
  Definition char_at (s : string) (i : nat) : res string :=
    if Nat.ltb i (String.length s) then Ok (substring i 1 s) else Err IndexError.

  (** outputstl.py 231-232: camber line and the slope used for it *)
  Definition camber (m p x : T) : T :=
    if x <? p then m / (p * p) * (n2 * p * x - x * x)
    else m / ((n1 - p) * (n1 - p)) * ((n1 - n2 * p) + n2 * p * x - x * x).
  Definition camber_slope (m p x : T) : T :=
    if x <? p then n2 * m / (p * p) * (p - x)
    else m / ((n1 - p) * (n1 - p)) * (p - x).
  (** outputstl.py 226: half thickness.  Simplification: powers are products. *)
  Definition half_thickness (t x : T) : T :=
    nint 5 * t * (ndec 2969 4 * nsqrt x - ndec 1260 4 * x - ndec 3516 4 * (x * x)
                  + ndec 2843 4 * (x * x * x) - ndec 1015 4 * (x * x * x * x)).
  (** outputstl.py 223-238: the point of the outline at angle theta *)
  Definition outline_point (m p t theta : T) : T * T :=
    let x := ndec 5 1 * (n1 - ncos theta) in
    let yt := half_thickness t x in
    let flat := (m =? n0) || (p =? n0) in
    let yc := if flat then n0 else camber m p x in
    let dy := if flat then n0 else camber_slope m p x in
    let yul := yc + yt * ncos (natan dy) * nsign theta in
    let xul := x - yt * nsin (natan dy) * nsign theta in
    (- xul + ndec 25 2, - yul).
  (** outputstl.py 215-239: plotNACA *)
  Definition outline (airfoil : string) (n : nat) : res (list (T * T)) :=
    rlet c0 := char_at airfoil 0 in
    rlet d0 := to_float c0 in
    rlet c1 := char_at airfoil 1 in
    rlet d1 := to_float c1 in
    rlet d2 := to_float (substring 2 2 airfoil) in
    let m := d0 / nint 100 in
    let p := d1 / nint 10 in
    let t := d2 / nint 100 in
    Ok (map (fun i => outline_point m p t (linspace (- npi) npi n i)) (seq 0 n)).
  (** reading an unassigned variable raises *)
  Definition outline_of (naca : option string) (n : nat) : res (list (T * T)) :=
    match naca with Some s => outline s n | None => Err UnboundLocalError end.

  (** outputstl.py 241-244: linear_inter at one section and one outline point *)
  Definition blend (l r : T * T) (s : T) : T * T :=
    (fst l + (fst r - fst l) * s, snd l + (snd r - snd l) * s).

  (** *** Triangles between neighbouring rows of points *)
  Definition at_ (rows : list (list (vec3 T))) (i j : nat) : vec3 T := nth j (nth i rows []) vzero.

  (** outputstl.py 81-90 and 186-204: the assignments for [count] rows of [n] points, the
      first triangle in slot [base]; [flip]: line 198, the other order of corners *)
  Definition strip (n count : nat) (base : Z) (flip : bool) (rows : list (list (vec3 T))) : list (write T) :=
    flat_map (fun i =>
      let section_index := (2 * (Z.of_nat n - 1) * Z.of_nat i)%Z in
      flat_map (fun j =>
        let k := (base + section_index + 2 * Z.of_nat j)%Z in
        let k1 := (k + 1)%Z in
        if flip then
          [MkWr k 0 (at_ rows i j); MkWr k 1 (at_ rows (S i) j); MkWr k 2 (at_ rows i (S j));
           MkWr k1 0 (at_ rows i (S j)); MkWr k1 1 (at_ rows (S i) j); MkWr k1 2 (at_ rows (S i) (S j))]
        else
          [MkWr k 0 (at_ rows i j); MkWr k 1 (at_ rows i (S j)); MkWr k 2 (at_ rows (S i) j);
           MkWr k1 0 (at_ rows i (S j)); MkWr k1 1 (at_ rows (S i) (S j)); MkWr k1 2 (at_ rows (S i) j)])
        (seq 0 (n - 1)))
      (seq 0 (count - 1)).

  (** *** Wings *)
  (** outputstl.py 58-79: the points of one section *)
  Definition section_row (side : seg_side) (l r : list (T * T)) (s : section T) : list (vec3 T) :=
    let dih := nrad (match side with SLeft => s_dihedral s | SRight => - s_dihedral s end) in
    let e1 := euler2quat dih n0 n0 in
    let e2 := euler2quat n0 (nrad (s_twist s)) n0 in
    let e := quat_mult e1 e2 in
    map (fun q =>
           let b := blend (fst q) (snd q) (s_sp s) in
           vadd (body2fixed (V3 (fst b * s_c s) n0 (snd b * s_c s)) e) (s_r s))
        (combine l r).
  (** the variables left_NACA and right_NACA *)
  Definition names : Type := (option string * option string)%type.
  (** outputstl.py 38-54: the outline names at the left and right end of a segment *)
  Definition end_names (v : names) (sg : segment T) : names :=
    let (al, ar) := lr_of_side (sg_side sg) (sg_root_af sg) (sg_tip_af sg) in
    (naca_of (fst v) (af_name al), naca_of (snd v) (af_name ar)).
  (** outputstl.py 36-92: the loop over the segments; [segs] pairs each segment with its slice *)
  Fixpoint wing_writes (n : nat) (sections : list (section T)) (segs : list (segment T * (nat * nat)))
           (v : names) (base : Z) : res (list (write T) * Z) :=
    match segs with
    | [] => Ok ([], base)
    | (sg, (a, b)) :: rest =>
        let v' := end_names v sg in
        rlet l := outline_of (fst v') n in
        rlet r := outline_of (snd v') n in
        let rows := map (section_row (sg_side sg) l r) (firstn (b - a) (skipn a sections)) in
        let ws := strip n (sg_num sg) base false rows in
        rlet out := wing_writes n sections rest v' (base + (Z.of_nat (sg_num sg) - 1) * (Z.of_nat n - 1) * 2)%Z in
        let (more, base') := out in
        Ok ((ws ++ more)%list, base')
    end.

  (** *** Propellers *)
  (** propmodel.py 78-162: _airfoil_span_list, positions and names (the position of a single
      airfoil is not used) *)
  Definition span_list (p : prop T) (zs : list T) : res (list (T * string)) :=
    match map snd (pr_airfoils p) with
    | [] => Ok [(n0, "NACA2412")]
    | [a] => Ok [(n0, af_name a)]
    | afs =>
        rlet l := rmap (span_of zs) afs in
        rlet l := sort_span l in
        Ok (map (fun q => (fst q, af_name (snd q))) l)
    end.
  (** outputstl.py 104-117: the loop over the airfoils of a propeller *)
  Fixpoint blade_outlines (n : nat) (afs : list (T * string)) (naca : option string)
    : res (list (T * list (T * T)) * option string) :=
    match afs with
    | [] => Ok ([], naca)
    | (loc, name) :: rest =>
        let naca' := naca_of naca name in
        rlet o := outline_of naca' n in
        rlet out := blade_outlines n rest naca' in
        let (more, v) := out in
        Ok ((loc, o) :: more, v)
    end.
  (** outputstl.py 119-131: outline point [j] at relative radius [z] *)
  Definition blade_point (outs : list (T * list (T * T))) (j : nat) (z : T) : T * T :=
    match outs with
    | [(_, o)] => nth j o (n0, n0)
    | _ =>
        (interp_clamped (map (fun q => (fst q, fst (nth j (snd q) (n0, n0)))) outs) z,
         interp_clamped (map (fun q => (fst q, snd (nth j (snd q) (n0, n0)))) outs) z)
    end.
  (** outputstl.py 156-171: the points of the first blade at one station, before it is
      oriented.  [z_al0] is subtracted from the aerodynamic pitch (line 163). *)
  Definition blade_row (n : nat) (rot : T) (outs : list (T * list (T * T))) (s : station T) : list (vec3 T) :=
    let twist := z_beta s - z_al0 s in
    let e := euler2quat n0 n0 (- rot * twist) in
    map (fun j =>
           let q := blade_point outs j (z_zeta s) in
           let c := body2fixed (V3 (- (snd q * z_cb s)) (fst q * z_cb s * rot) n0) e in
           V3 (vx c) (vy c) (- z_r s))
        (seq 0 n).
  (** outputstl.py 180-208: the loop over the blades *)
  Fixpoint blades (n count k : nat) (base : Z) (flip : bool) (full turn : quat T) (pos : vec3 T)
           (rows : list (list (vec3 T))) : list (write T) :=
    match k with
    | 0%nat => []
    | S k' =>
        (strip n count base flip (map (map (fun v => vadd (body2fixed v full) pos)) rows)
         ++ blades n count k' (base + (Z.of_nat count - 1) * (Z.of_nat n - 1) * 2)%Z flip full turn pos
                   (map (map (fun v => body2fixed v turn)) rows))%list
    end.
  (** outputstl.py 95-210: the loop over the propellers, each given with its Prop object *)
  Fixpoint prop_writes (n : nat) (props : list (prop T * pgeom T)) (naca : option string) (base : Z)
    : res (list (write T)) :=
    match props with
    | [] => Ok []
    | (p, g) :: rest =>
        let ss := pg_stations g in
        let count := List.length ss in
        rlet afs := span_list p (map (@z_zeta T) ss) in
        rlet out := blade_outlines n afs naca in
        let (outs, naca') := out in
        if Nat.eqb (pg_k g) 0 then Err ZeroDivisionError else
        let turn := euler2quat (n2 * npi / nnat (pg_k g)) n0 n0 in
        let full := euler2quat n0 (pg_theta g) (pg_gamma g) in
        let rows := map (blade_row n (pg_rot g) outs) ss in
        let ws := blades n count (pg_k g) base (negb (pg_rot g =? n1)) full turn (pg_pos g) rows in
        rlet more := prop_writes n rest naca'
                       (base + Z.of_nat (pg_k g) * (Z.of_nat count - 1) * (Z.of_nat n - 1) * 2)%Z in
        Ok (ws ++ more)%list
    end.

  (** *** The mesh *)
  (** Python indexing: negative indices count from the end *)
  Definition slot_of (len : nat) (k : Z) : option nat :=
    let k' := (if k <? 0 then k + Z.of_nat len else k)%Z in
    if ((0 <=? k') && (k' <? Z.of_nat len))%Z then Some (Z.to_nat k') else None.
  Definition set_corner (t : triangle T) (c : nat) (p : vec3 T) : triangle T :=
    let '(a, b, d) := t in
    match c with 0%nat => (p, b, d) | 1%nat => (a, p, d) | _ => (a, b, p) end.
  Fixpoint update {A} (l : list A) (i : nat) (f : A -> A) : list A :=
    match l, i with
    | [], _ => []
    | x :: r, 0%nat => f x :: r
    | x :: r, S i => x :: update r i f
    end.
  Fixpoint apply_writes (mesh : list (triangle T)) (ws : list (write T)) : res (list (triangle T)) :=
    match ws with
    | [] => Ok mesh
    | w :: rest =>
        match slot_of (List.length mesh) (wr_slot w) with
        | None => Err IndexError
        | Some i => apply_writes (update mesh i (fun t => set_corner t (wr_corner w) (wr_point w))) rest
        end
    end.

  (** outputstl.py 11-23: the number of triangles *)
  Definition num_faces (n : nat) (g : option (grid T)) (props : list (pgeom T)) : Z :=
    (match g with
     | Some g => (Z.of_nat (g_num g) - Z.of_nat (List.length (g_segments g))) * (Z.of_nat n - 1) * 2
     | None => 0
     end +
     fold_right (fun p acc => Z.of_nat (pg_k p) * (Z.of_nat (List.length (pg_stations p)) - 1) * (Z.of_nat n - 1) * 2 + acc) 0 props)%Z.
  (** all assignments, in order *)
  Definition all_writes (n : nat) (g : option (grid T)) (props : list (prop T * pgeom T)) : res (list (write T)) :=
    rlet w := match g with
              | Some g => wing_writes n (g_sections g) (combine (g_segments g) (g_slices g)) (None, None) 0
              | None => Ok ([], 0%Z)
              end in
    let (ws, base) := w in
    rlet ps := prop_writes n props None base in
    Ok (ws ++ ps)%list.
  (** outputstl.py 9-212: create_from_grid, up to saving.  Simplifications: the exceptions of
      the loops are raised before, not between the assignments (the mesh is lost either way);
      the airplane has not changed since the model was made. *)
  Definition create_from_grid (n : nat) (g : option (grid T)) (props : list (prop T * pgeom T)) : res (list (triangle T)) :=
    let faces := num_faces n g (map snd props) in
    if (faces <? 0)%Z then Err ValueError else
    rlet ws := all_writes n g props in
    apply_writes (repeat (vzero, vzero, vzero) (Z.to_nat faces)) ws.

  (** MU.py 192-214: create_stl.  The value is the mesh saved under the name given (None: the
      airplane has no parts and nothing is saved).  n = 50, outputstl.py line 12. *)
  Definition create_stl (E : menv T) (pl : airplane T) (X : machup T) : st (world T (mstate T)) (option (list (triangle T))) :=
    fun w =>
      match mu_solve E X None None (MkW None None (w_model w) (w_files w) (w_log w)) with
      | (Err e, w') => (Err e, MkW (w_aero w) (w_ctl w) (w_model w') (w_files w') (w_log w'))
      | (Ok _, w') =>
          (match mm_grid X, mm_props X with
           | None, [] => Ok None
           | g, ps => rlet m := create_from_grid 50 g (combine (map snd (a_props pl)) ps) in Ok (Some m)
           end, MkW (w_aero w) (w_ctl w) (w_model w') (w_files w') (w_log w'))
      end.
End Stl.
