(** Vocabulary for the properties of the geometry (C06, C09, C10, C29). *)
From Coq Require Import Reals String Arith List.
From Verif Require Import Base Num Geometry.
Import ListNotations.
Set Implicit Arguments.
Local Open Scope R_scope.

(** A wing that is laterally symmetric as positioned: it has both sides, no lateral
    displacement, and hangs (through wings of the same kind) on the origin or on an
    airplane positioned in the x-z plane. *)
Inductive symmetric_wing (pl : airplane R) : wing R -> Prop :=
| sym_top w :
    w_side w = WBoth ->
    (forall s, In s (wing_segments w) ->
       vy (sg_delta s) = 0 /\
       (sg_parent s = PNone \/ sg_parent s = PAirplane /\ vy (airplane_position pl) = 0)) ->
    symmetric_wing pl w
| sym_child w id p :
    w_side w = WBoth ->
    (forall s, In s (wing_segments w) -> vy (sg_delta s) = 0 /\ sg_parent s = PWing id) ->
    nth_error (a_store pl) id = Some p ->
    symmetric_wing pl p ->
    symmetric_wing pl w.

(** *** Where a segment sits (C09) *)

(** +1 on the right side, -1 on the left side. *)
Definition outward (s : segment R) : R := match sg_side s with SRight => 1 | SLeft => -1 end.

(** The inboard ("root") and outboard ("tip") ends in the naming of get_position. *)
Definition root_end (side : seg_side) : string :=
  match side with SRight => "left_tip" | SLeft => "right_tip" end.
Definition tip_end (side : seg_side) : string :=
  match side with SRight => "right_tip" | SLeft => "left_tip" end.

(** Displacement of the root from its attachment point: the position keyword plus
    the y-offset, outboard. *)
Definition root_shift (s : segment R) : vec3 R :=
  vadd (sg_delta s) (V3 0 (outward s * sg_yoffset s) 0).
(** Vector from root to tip: aft by span*tan(sweep), outboard by span*cos(dihedral),
    up (negative z) by span*sin(dihedral). *)
Definition root_to_tip (s : segment R) : vec3 R :=
  V3 (- (sg_span s * tan (nrad (sg_sweep s))))
     (outward s * (sg_span s * cos (nrad (sg_dihedral s))))
     (- (sg_span s * sin (nrad (sg_dihedral s)))).

(** The segment of a wing on a given side. *)
Definition segment_on {T} (side : seg_side) (w : wing T) : option (segment T) :=
  match side with SLeft => w_left w | SRight => w_right w end.

(** [sits pl s p]: the root of segment [s] is at [p]. *)
Inductive sits (pl : airplane R) : segment R -> vec3 R -> Prop :=
| sits_origin s : sg_parent s = PNone -> sits pl s (root_shift s)
| sits_airplane s : sg_parent s = PAirplane ->
    sits pl s (vadd (airplane_position pl) (root_shift s))
| sits_wing s id w q p :
    sg_parent s = PWing id -> sg_connect_at s = tip_end (sg_side s) ->
    nth_error (a_store pl) id = Some w ->
    segment_on (sg_side s) w = Some q -> sits pl q p ->
    sits pl s (vadd (vadd p (root_to_tip q)) (root_shift s)).

(** [hangs_on pl id s]: segment [s] is attached to wing [id], directly or through
    other wings. *)
Inductive hangs_on {T} (pl : airplane T) (id : nat) : segment T -> Prop :=
| hangs_direct s : sg_parent s = PWing id -> hangs_on pl id s
| hangs_through s i w q : sg_parent s = PWing i -> nth_error (a_store pl) i = Some w ->
    segment_on (sg_side s) w = Some q -> hangs_on pl id q -> hangs_on pl id s.

(** A wing displaced by [d]: only the position of its segments changes. *)
Definition move_segment (d : vec3 R) (s : segment R) : segment R :=
  MkSegment (sg_name s) (sg_side s) (sg_parent s) (sg_connect_at s) (vadd (sg_delta s) d)
            (sg_is_main s) (sg_yoffset s) (sg_span s) (sg_root_chord s) (sg_tip_chord s)
            (sg_sweep s) (sg_dihedral s) (sg_mount s) (sg_washout s) (sg_root_af s) (sg_tip_af s)
            (sg_control s) (sg_num s).
Definition move_wing (d : vec3 R) (w : wing R) : wing R :=
  MkWing (w_name w) (w_side w) (option_map (move_segment d) (w_left w))
         (option_map (move_segment d) (w_right w)).
(** [moved id d pl pl']: the same airplane except that wing [id] is displaced by [d]. *)
Definition moved (id : nat) (d : vec3 R) (pl pl' : airplane R) : Prop :=
  airplane_position pl' = airplane_position pl /\
  forall i, nth_error (a_store pl') i =
            if Nat.eqb i id then option_map (move_wing d) (nth_error (a_store pl) i)
            else nth_error (a_store pl) i.

(** No wing is attached to itself (C09, C10). *)
Definition not_self_attached {T} (pl : airplane T) : Prop :=
  forall i w s, nth_error (a_store pl) i = Some w -> (w_left w = Some s \/ w_right w = Some s) ->
                sg_parent s <> PWing i.

(** The coordinate left by a sequence of updates: the last non-zero value given,
    or the original one (C12). *)
Fixpoint last_nonzero (old : R) (vs : list (option R)) : R :=
  match vs with
  | [] => old
  | Some v :: r => if Req_EM_T v 0 then last_nonzero old r else last_nonzero v r
  | None :: r => last_nonzero old r
  end.

(** Two keyword dictionaries for add_wing that differ only in the position, by [d]. *)
Definition shifted (d : vec3 R) (dims dims' : dict (pyval R)) : Prop :=
  (forall k, k <> "position"%string -> dget dims' k = dget dims k) /\
  exists x y z x' y' z', dget dims "position" = Some (VList [VNum x; VNum y; VNum z]) /\
    dget dims' "position" = Some (VList [VNum x'; VNum y'; VNum z']) /\
    V3 x' y' z' = vadd (V3 x y z) d.
