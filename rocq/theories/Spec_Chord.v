(** Specification of the blade planform of a propeller (C82). *)
From Coq Require Import Reals String List.
From Verif Require Import Base Num RVec Geometry PropModel Spec_Prop.
Import ListNotations.
Local Open Scope string_scope.
Local Open Scope R_scope.

(** A Python number, the truth values included. *)
Definition numeric (v : pyval R) (x : R) : Prop :=
  number v x \/ (v = VBool true /\ x = 1) \/ (v = VBool false /\ x = 0).

(** The blade nodes lie at equal distances between the surface of the hub and 0.999 of the
    tip radius; [r] is the radius of node [i] of [n]. *)
Definition node_radius (p : prop R) (i : nat) (r : R) : Prop :=
  r * INR (pr_nodes p - 1) =
  pr_hub p / 2 * INR (pr_nodes p - 1 - i) + 999 / 1000 * (pr_diameter p / 2) * INR i.

(** [blade_chord table p r c]: the input asks for the chord [c] at the radius [r]. *)
Inductive blade_chord (table : string -> res (R -> R)) (p : prop R) (r : R) : R -> Prop :=
| BC_default : dget (pr_chord p) "type" = Some (VStr "default") ->
    blade_chord table p r (75 / 1000 * pr_diameter p * sqrt (1 - (r / (pr_diameter p / 2)) ^ 2))
| BC_file name f : dget (pr_chord p) "type" = Some (VStr "from_file") ->
    dget (pr_chord p) "filename" = Some (VStr name) -> table name = Ok f ->
    blade_chord table p r (f (r / (pr_diameter p / 2)) * (pr_diameter p / 2))
| BC_linear v w root tip c : dget (pr_chord p) "type" = Some (VStr "linear") ->
    dget (pr_chord p) "root" = Some v -> numeric v root ->
    (dget (pr_chord p) "tip" = Some w \/ (dget (pr_chord p) "tip" = None /\ w = v)) -> numeric w tip ->
    (** (r, c) is on the line through (hub radius, root) and (0.999 tip radius, tip) *)
    (c - root) * (999 / 1000 * (pr_diameter p / 2) - pr_hub p / 2) = (tip - root) * (r - pr_hub p / 2) ->
    blade_chord table p r c
| BC_elliptical v root : dget (pr_chord p) "type" = Some (VStr "elliptical") ->
    dget (pr_chord p) "root" = Some v -> numeric v root ->
    blade_chord table p r (root * sqrt (1 - (r / (pr_diameter p / 2)) ^ 2)).
