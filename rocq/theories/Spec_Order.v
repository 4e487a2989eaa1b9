(** Specification vocabulary for C78: the same wings, named and entered otherwise. *)
From Coq Require Import Reals String Bool Arith List Permutation.
From Verif Require Import Base Num Geometry Grid LLModel PropModel MU.
Import ListNotations.
Local Open Scope R_scope.

(** *** The airplane *)
(** A wing half under another name; [g] renumbers the wings it may be attached to. *)
Definition renamed_half (g : nat -> nat) (name : string) (s : segment R) : segment R :=
  MkSegment name (sg_side s) (match sg_parent s with PWing id => PWing (g id) | p => p end) (sg_connect_at s)
            (sg_delta s) (sg_is_main s) (sg_yoffset s) (sg_span s) (sg_root_chord s) (sg_tip_chord s)
            (sg_sweep s) (sg_dihedral s) (sg_mount s) (sg_washout s) (sg_root_af s) (sg_tip_af s)
            (sg_control s) (sg_num s).
Definition same_half (g : nat -> nat) (a b : option (segment R)) : Prop :=
  match a, b with
  | None, None => True
  | Some s, Some s' => s' = renamed_half g (sg_name s') s
  | _, _ => False
  end.
Definition same_wing (g : nat -> nat) (w w' : wing R) : Prop :=
  w_side w' = w_side w /\ same_half g (w_left w) (w_left w') /\ same_half g (w_right w) (w_right w').

(** The same airplane with the wings created in another order ([g]: the new number of a wing),
    listed in another order and under other names. *)
Record reordered_by (g : nat -> nat) (pl pl' : airplane R) : Prop := {
  ro_number : List.length (a_store pl') = List.length (a_store pl);
  ro_wings : forall id, match nth_error (a_store pl) id, nth_error (a_store pl') (g id) with
                        | Some w, Some w' => same_wing g w w'
                        | None, None => True
                        | _, _ => False
                        end;
  ro_listed : Permutation (map (fun e => g (snd e)) (a_wings pl)) (map snd (a_wings pl'));
  ro_props : a_props pl' = a_props pl;
  ro_cg : a_cg pl' = a_cg pl;
  ro_long : a_long_ref pl' = a_long_ref pl;
  ro_lat : a_lat_ref pl' = a_lat_ref pl;
  ro_position : a_position pl' = a_position pl;
  ro_units : a_units pl' = a_units pl
}.
Definition reordered (pl pl' : airplane R) : Prop := exists g, reordered_by g pl pl'.

(** *** Values per section *)
(** [f] renumbers the [n] sections. *)
Record renumbers (n : nat) (f : nat -> nat) : Prop := {
  rn_lt : forall i, (i < n)%nat -> (f i < n)%nat;
  rn_inj : forall i j, (i < n)%nat -> (j < n)%nat -> f i = f j -> i = j
}.
(** Two lists with one value per section: the value of section [i] is now that of [f i]. *)
Definition moved {A} (n : nat) (f : nat -> nat) (x x' : list A) : Prop :=
  List.length x = n /\ List.length x' = n /\ forall i, (i < n)%nat -> nth_error x' (f i) = nth_error x i.
Definition moved_opt {A} (n : nat) (f : nat -> nat) (x x' : option (list A)) : Prop :=
  match x, x' with
  | None, None => True
  | Some x, Some x' => moved n f x x'
  | _, _ => False
  end.
(** A section without the name of its wing. *)
Definition anonymous (s : section R) : section R :=
  MkSection EmptyString (s_sp s) (s_sp1 s) (s_sp2 s) (s_r s) (s_r1 s) (s_r2 s)
            (s_c s) (s_c1 s) (s_c2 s) (s_dS s) (s_cla s) (s_al0 s) (s_cma s) (s_cml0 s)
            (s_cd0 s) (s_cd1 s) (s_cd2 s) (s_clmax s) (s_washout s) (s_mount s)
            (s_dihedral s) (s_sweep s) (s_ua s) (s_un s) (s_us s) (s_flap_eff s)
            (s_mix_a s) (s_mix_e s) (s_mix_r s) (s_mix_f s) (s_cmd s) (s_ic2 s).
(** A line of the table of distributions without it. *)
Definition anonymous_row (r : wing_row R) : wing_row R :=
  let d := wr_row r in
  MkWRow (MkDist EmptyString (d_cp d) (d_chord d) (d_twist d) (d_dihedral d) (d_sweep d) (d_area d)
                 (d_alpha d) (d_force d) (d_cl d) (d_cm d) (d_cd d) (d_al0 d)) (wr_cl_ref r).

(** *** The two runs *)
(** The same flow: equal entries; a local state with one row per section lists the same rows
    in the new order. *)
Definition same_flow (n : nat) (f : nat -> nat) (a a' : aero_state R) : Prop :=
  an a' = an a /\
  match als a, als a' with
  | None, None => True
  | Some r, Some r' => moved n f r r' \/ List.length r <> n /\ r' = r
  | _, _ => False
  end.
(** The same state of the wing model: equal totals, the same values section by section. *)
Record same_ll (n : nat) (f : nat -> nat) (s s' : ll_state R) : Prop := {
  sl_v : moved n f (l_v s) (l_v s');
  sl_uinf : l_uinf s' = l_uinf s;
  sl_rho : moved n f (l_rho s) (l_rho s');
  sl_rates : l_rates s' = l_rates s;
  sl_delta : moved n f (l_delta s) (l_delta s');
  sl_eff : moved n f (l_eff s) (l_eff s');
  sl_results : l_results s' = l_results s;
  sl_gamma : moved_opt n f (l_gamma s) (l_gamma s');
  sl_alphas : moved_opt n f (l_alphas s) (l_alphas s');
  sl_forces : moved_opt n f (l_forces s) (l_forces s');
  sl_cl : moved_opt n f (l_cl s) (l_cl s');
  sl_cd : moved_opt n f (l_cd s) (l_cd s');
  sl_cm : moved_opt n f (l_cm s) (l_cm s')
}.
Definition same_model (n : nat) (f : nat -> nat) (s s' : mstate R) : Prop :=
  same_ll n f (m_ll s) (m_ll s') /\ m_ps s' = m_ps s.
(** The world of a call: dictionaries, object and files. *)
Record same_world (n : nat) (f : nat -> nat) (w w' : world R (mstate R)) : Prop := {
  sw_aero : match w_aero w, w_aero w' with
            | None, None => True
            | Some a, Some a' => same_flow n f a a'
            | _, _ => False
            end;
  sw_ctl : w_ctl w' = w_ctl w;
  sw_model : same_model n f (w_model w) (w_model w');
  sw_files : w_files w' = w_files w
}.
(** Two calls that, from such worlds, raise the same exception or return answers related by
    [Q], and again leave such worlds. *)
Definition same_run {A} (n : nat) (f : nat -> nat) (Q : A -> A -> Prop) (p p' : st (world R (mstate R)) A) : Prop :=
  forall w w', same_world n f w w' ->
    match fst (p w), fst (p' w') with
    | Ok a, Ok a' => Q a a'
    | Err e, Err e' => e' = e
    | _, _ => False
    end /\ same_world n f (snd (p w)) (snd (p' w')).
(** Stall: the same angle, lift and airspeed.  Which of several stalled sections is reported
    depends on the order. *)
Definition same_stall (i i' : stall_info R) : Prop :=
  si_alpha i' = si_alpha i /\ si_lift i' = si_lift i /\ si_airspeed i' = si_airspeed i.
Definition same_answer {A} (Q : A -> A -> Prop) (x x' : answer A) : Prop :=
  match x, x' with
  | Answer a, Answer a' => Q a a'
  | ErrorRecord m, ErrorRecord m' => m' = m
  | _, _ => False
  end.
(** Distributions: the same lines in the new order under the new names; the same blades. *)
Definition same_table (n : nat) (f : nat -> nat) (t t' : list (wing_row R) * list (@blade_row R)) : Prop :=
  moved n f (map anonymous_row (fst t)) (map anonymous_row (fst t')) /\ snd t' = snd t.

(** *** Entering wings *)
(** What a user enters for one wing: add_wing, then airfoil and control_surface on the wing
    it returned (geometry.py 275-314, 589-667). *)
Inductive wing_edit : Type :=
| EAirfoil (name end_ : string) (props : dict (pyval R))
| EControl (props : dict (pyval R)).
Record wing_entry : Type := MkEntry {
  we_name : string;
  we_parent : option string;
  we_at : string;
  we_side : string;
  we_dims : dict (pyval R);
  we_edits : list wing_edit
}.
Definition edit_wing (id : nat) (e : wing_edit) : st (airplane R) unit :=
  match e with
  | EAirfoil name end_ props => sbind (wing_airfoil id name end_ props) (fun _ => sret tt)
  | EControl props => sbind (wing_control_surface id props) (fun _ => sret tt)
  end.
Definition enter (e : wing_entry) : st (airplane R) unit :=
  sbind (add_wing (we_name e) (we_parent e, we_at e) (we_side e) (we_dims e))
        (fun id => siter (edit_wing id) (we_edits e)).
(** The same entry in a program that calls the wings otherwise. *)
Definition rename_entry (rho : string -> string) (e : wing_entry) : wing_entry :=
  MkEntry (rho (we_name e)) (option_map rho (we_parent e)) (we_at e) (we_side e) (we_dims e) (we_edits e).
(** Every wing is attached to the airplane or to a wing entered no later than itself. *)
Definition parents_first (es : list wing_entry) : Prop :=
  forall before e after p, es = (before ++ e :: after)%list -> we_parent e = Some p -> p <> EmptyString ->
    In p (map we_name (before ++ [e])).
