(** Vocabulary for the distributions (C71). *)
From Coq Require Import Reals String Bool Arith List.
From Verif Require Import Base Num RVec Geometry Grid LLModel PropModel Spec_Grid Spec_LL Spec_Prop MU Spec_MU.
Import ListNotations.
Set Implicit Arguments.
Local Open Scope string_scope.

(** *** Histories: solves and distributions with arbitrary arguments, returning or raising,
    with the centre of gravity moved in between *)
Inductive reached {T} {N : num_ops T} (E : menv T) (X : machup T) : mstate T -> Prop :=
| new_object : reached E X (init_mstate X)
| after_solving s cg ps a c :
    reached E X s -> reached E X (snd (h_solve (host_of E (with_cg cg X) ps) a c s))
| after_listing w cg ps k f :
    reached E X (w_model w) -> reached E X (w_model (snd (distributions E (with_cg cg X) ps k f w))).

(** *** What a row says about the geometry *)
Section Rows.
  Local Open Scope R_scope.
  (** wing section [s]; [long]: longitudinal reference length *)
  Definition lists_section (long : R) (s : section R) (row : wing_row R) : Prop :=
    let d := wr_row row in
    d_name d = s_name s /\ d_cp d = s_r s /\ d_chord d = s_c s /\ d_twist d = s_mount s - s_washout s /\
    d_dihedral d = s_dihedral s /\ d_sweep d = s_sweep s /\ d_area d = s_dS s /\ d_al0 d = tm (s_al0 s) /\
    wr_cl_ref row = d_cl d * s_c s / long.
  (** blade node [z] of the propeller named [name] *)
  Definition lists_node (name : string) (z : station R) (b : blade_row (T := R)) : Prop :=
    b_name b = name /\ b_r b = z_r z /\ b_chord b = z_cb z /\ b_pitch b = z_beta z * 180 / PI.
End Rows.

(** *** What the text file shows of a table *)
(** [short] is [name] cut to the width of the column *)
Definition cut (name short : string) : Prop :=
  exists rest, name = short ++ rest /\ String.length short <= 18 /\ (rest <> "" -> String.length short = 18).
Definition printed_section {T} (row shown : wing_row T) : Prop :=
  exists short, cut (d_name (wr_row row)) short /\
    let d := wr_row row in
    shown = MkWRow (MkDist short (d_cp d) (d_chord d) (d_twist d) (d_dihedral d) (d_sweep d) (d_area d) (d_alpha d)
                           (d_force d) (d_cl d) (d_cm d) (d_cd d) (d_al0 d)) (wr_cl_ref row).
Definition printed_node {T} (b shown : blade_row (T := T)) : Prop :=
  exists short, cut (b_name b) short /\
    shown = MkBlade short (b_r b) (b_chord b) (b_pitch b) (b_advance b) (b_induced b) (b_alpha b) (b_cl b) (b_cd b)
                    (b_Vi b) (b_Vx b) (b_Vt b).

(** a name that ends in "json" *)
Definition json_name (f : string) : Prop := exists stem, f = stem ++ "json".
(** the old contents of a file (nothing if it does not exist) *)
Definition contents {T} (files : dict (list (content T))) (f : string) : list (content T) :=
  match dget files f with Some l => l | None => [] end.
