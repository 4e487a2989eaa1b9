(** An airplane that is only a propeller, for the examples of C71. *)
From Coq Require Import Reals ZArith String Bool Arith Lia Lra List.
From Verif Require Import Base Num RVec Geometry Api Grid LLModel PropModel Spec_Grid Spec_Geom Spec_LL Spec_Prop MU Spec_MU Spec_Dist
  LL_state LL_R LL_solve LL_thm Linalg Linalg2 Demo Demo_LL Prop_state Prop_thm Prop_thm2 Prop_thm3 Prop_thm4 Prop_thm5 Prop_thm6 Prop_thm7 MU_thm MU_thm3 MU_thm13 MU_thm15 MU_thm16 MU_thm18 Demo_MU.
Import ListNotations.
Local Open Scope string_scope.
Local Open Scope R_scope.

Definition puller : airplane R := MkAirplane "puller" [] [] [("main", demo_prop)] vzero None None None (Some (Some "English")).
Lemma puller_solves c files : exists E X t w',
  make_machup E puller = Ok X /\ mm_grid X = None /\ List.length (mm_props X) = 1%nat /\
  mu_solve E X (Some [("J", PNum (/ 2))]) None (MkW (Some cruise) c (init_mstate X) files []) = (Ok t, w').
Proof.
  destruct (demo_returns None vzero [1 / 2; 1 / 3] eq_refl) as (m & g & [pt rows] & ss' & M1 & M2 & M3 & _).
  set (E := MkME (fun _ b => Some b) (with_memory m demo_env) gauss_inv (fun x => x) 100%nat).
  set (X := MkMU None None [g] None vzero : machup R).
  assert (Em : make_machup E puller = Ok X).
  { unfold make_machup. change (a_wings puller) with (@nil (string * nat)). cbn [rbind option_map].
    change (a_props puller) with [("main", demo_prop)]. cbv iota.
    replace (make_props (me_prop E) puller None) with (@Ok (list (pgeom R)) [g]) by (symmetry; exact M1). reflexivity. }
  exists E, X.
  destruct (solve_given E X (Some [("J", PNum (/ 2))]) None (MkW (Some cruise) c (init_mstate X) files []) cruise eq_refl ltac:(left; discriminate))
    as (r & a' & s1 & P & A1 & A2 & A3 & A4 & _).
  unfold solve_parts in P. cbn [X mm_props mm_grid mm_cg w_ctl w_model init_mstate m_ll m_ps mm_points] in P.
  change (option_map (List.length (A:=vec3 R)) None) with (@None nat) in M3.
  change (me_prop E) with (with_memory m demo_env) in P. rewrite M3 in P.
  injection P as <- _ _. cbn [rbind snd] in A4.
  eexists _, _. split; [exact Em|]. split; [reflexivity|]. split; [reflexivity|].
  rewrite surjective_pairing at 1. rewrite A4. reflexivity.
Qed.

(** one propeller of two nodes has two rows *)
Lemma two_rows E (pl : airplane R) X ps k f w wings blades w' : map snd (a_props pl) = [demo_prop] ->
  make_machup E pl = Ok X -> reached E X (w_model w) -> distributions E X ps k f w = (Ok (wings, blades), w') ->
  List.length blades = 2%nat.
Proof.
  intros Hp Em Hr K. destruct (blade_table_lemma E pl X ps k f w wings blades w' Em Hr K) as (gs & tables & A & -> & C).
  rewrite Hp in A. inversion A as [|p g l l' (_ & u & wp & _ & M) A']; subst. inversion A'; subst.
  inversion C as [|g0 rows l l' D C']; subst. inversion C'; subst.
  destruct (demo_make (me_prop E) u wp) as (g' & M' & L & _). rewrite M' in M. injection M as <-.
  cbn [concat]. rewrite app_nil_r, <- (f2_len _ _ _ D). exact L.
Qed.
