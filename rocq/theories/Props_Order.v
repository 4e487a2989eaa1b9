(** Theorem C78: neither the order in which wings are entered nor their names matter.
    Vocabulary: Spec_Order.v, Spec_LL.v. *)
From Coq Require Import Reals ZArith String Bool Arith Lia List Permutation.
From Verif Require Import Base Num Geometry Api Grid LLModel PropModel Spec_LL MU Linalg Demo Demo_LL Demo_MU Demo_Mirror
  Spec_Order LL_order MU_order2 Order_api.
Import ListNotations.
Local Open Scope string_scope.
Local Open Scope R_scope.

(** *** C78 *)
(** Wings entered in another order and under other names: as long as every wing follows the one
    it is attached to, the calls return and give the same airplane up to order and names. *)
Theorem C78_any_order_of_entry :
  forall (pl p1 : airplane R) es es' rho,
    a_wings pl = [] -> a_store pl = [] -> NoDup (map we_name es) ->
    (forall x y, rho x = rho y -> x = y) -> rho "" = "" ->
    Permutation (map (rename_entry rho) es) es' -> parents_first es' ->
    siter enter es pl = (Ok tt, p1) -> exists p2, siter enter es' pl = (Ok tt, p2) /\ reordered p1 p2.
Proof. exact any_order_returns. Qed.
Print Assumptions C78_any_order_of_entry.

(** Two such airplanes are analysed alike: the sections are the same under a renumbering, and
    every analysis from then on gives the same answer or raises the same exception, the state
    left behind and the distributions being the same section by section. *)
Theorem C78_order_does_not_matter :
  forall E (pl pl' : airplane R), reordered pl pl' -> exact_solver (me_lsolve E) ->
  match make_machup E pl, make_machup E pl' with
  | Ok X, Ok X' =>
      exists n f, renumbers n f /\
        match mm_grid X, mm_grid X' with
        | Some g, Some g' => moved n f (map anonymous (g_sections g)) (map anonymous (g_sections g'))
        | None, None => n = 0%nat
        | _, _ => False
        end /\
        mm_refs X' = mm_refs X /\
        same_model n f (init_mstate X) (init_mstate X') /\
        forall ps, let H := host_of E X ps in let H' := host_of E X' ps in
          (forall o, same_run n f eq (mu_solve E X ps o) (mu_solve E X' ps o)) /\
          same_run n f eq (stability_derivatives H) (stability_derivatives H') /\
          same_run n f eq (control_derivatives H) (control_derivatives H') /\
          same_run n f eq (damping_derivatives H) (damping_derivatives H') /\
          (forall o, same_run n f eq (derivatives H o) (derivatives H' o)) /\
          (forall L o e, same_run n f eq (target_lift H L o e) (target_lift H' L o e)) /\
          (forall L M o e, same_run n f eq (pitch_trim H E L M o e) (pitch_trim H' E L M o e)) /\
          same_run n f (same_answer same_stall) (stall_onset H E None) (stall_onset H' E None) /\
          (forall W e, same_run n f (same_answer same_stall) (stall_airspeed H E W None e) (stall_airspeed H' E W None e)) /\
          (forall o, same_run n f eq (find_aero_center H E o) (find_aero_center H' E o)) /\
          (forall k, same_run n f (same_table n f) (distributions E X ps k None) (distributions E X' ps k None))
  | Err _, Err _ => True
  | _, _ => False
  end.
Proof. exact order_does_not_matter. Qed.
Print Assumptions C78_order_does_not_matter.

(** *** An airplane with winglets, tail, fin and dorsal fin, entered in two orders *)
Definition e_main : wing_entry :=
  MkEntry "main" None "tip" "both"
    [("semispan", VInt 4); ("root_chord", VInt 2); ("tip_chord", VInt 1); ("sweep", VInt 10);
     ("dihedral", VInt 5); ("washout", VInt 2); ("mount_angle", VInt 1); ("grid", VInt 3)]
    [EAirfoil "root_section" "root" demo_airfoil_props;
     EControl [("percent_span", VList [VNum (ndec 4 1); VNum (ndec 9 1)]);
               ("percent_chord", VList [VNum (ndec 2 1); VNum (ndec 3 1)]);
               ("mix", VDict [("aileron", VInt 1); ("flap", VInt 1)])]].
Definition e_winglet (n p : string) : wing_entry :=
  MkEntry n (Some p) "tip" "both" [("semispan", VInt 1); ("dihedral", VInt 80); ("grid", VInt 2); ("is_main", VInt 0)] [].
Definition e_tail : wing_entry :=
  MkEntry "tail" None "tip" "both"
    [("semispan", VInt 1); ("position", VList [VInt (-5); VInt 0; VInt 0]); ("grid", VInt 2); ("is_main", VInt 0)]
    [EControl [("percent_span", VList [VInt 0; VInt 1]); ("percent_chord", VNum (ndec 3 1));
               ("mix", VDict [("elevator", VInt 1)]); ("sealed", VInt 0)]].
Definition e_fin (n : string) : wing_entry :=
  MkEntry n None "tip" "right"
    [("semispan", VInt 1); ("dihedral", VInt 90); ("position", VList [VInt (-5); VInt 0; VInt 0]);
     ("grid", VInt 2); ("is_main", VInt 0)]
    [EAirfoil "plate" "both" plate;
     EControl [("percent_span", VList [VInt 0; VInt 1]); ("percent_chord", VNum (ndec 3 1)); ("mix", VDict [("rudder", VInt 1)])]].
Definition e_top (p : string) : wing_entry :=
  MkEntry "top" (Some p) "tip" "right" [("semispan", VInt 1); ("dihedral", VInt 90); ("grid", VInt 1); ("is_main", VInt 0)]
    [EAirfoil "plate" "both" plate].
Definition entries : list wing_entry := [e_main; e_winglet "winglet" "main"; e_tail; e_fin "fin"; e_top "fin"].
Definition entries' : list wing_entry := [e_tail; e_fin "winglet"; e_top "winglet"; e_main; e_winglet "fin" "main"].
(** The second program calls the winglets "fin" and the fin "winglet". *)
Definition swap (s : string) : string := if String.eqb s "fin" then "winglet" else if String.eqb s "winglet" then "fin" else s.

Lemma entries_run : siter enter entries (new_airplane "finned" None) = (Ok tt, finned).
Proof. vm_compute. reflexivity. Qed.
Lemma swap_inj x y : swap x = swap y -> x = y.
Proof.
  unfold swap. destruct (String.eqb_spec x "fin"), (String.eqb_spec x "winglet"), (String.eqb_spec y "fin"), (String.eqb_spec y "winglet"); congruence.
Qed.
Lemma entries_perm : Permutation (map (rename_entry swap) entries) entries'.
Proof.
  change (map (rename_entry swap) entries) with ([e_main; e_winglet "fin" "main"] ++ [e_tail; e_fin "winglet"; e_top "winglet"])%list.
  change entries' with ([e_tail; e_fin "winglet"; e_top "winglet"] ++ [e_main; e_winglet "fin" "main"])%list.
  apply Permutation_app_comm.
Qed.
Lemma entries_first : parents_first entries'.
Proof.
  intros b e a p H Hp Q. unfold entries' in H.
  do 5 (destruct b as [|? b]; [injection H as <- <-; cbn in Hp; try discriminate; injection Hp as <-; cbn; tauto|injection H as <- H]).
  destruct b; discriminate.
Qed.
Lemma finned_made : exists X, make_machup gauss_env finned = Ok X.
Proof.
  destruct (finned_grid true) as [g Hg]. unfold make_machup. rewrite Hg. 
  rewrite finned_eq. cbn [finned_val a_wings a_props rbind]. eexists. reflexivity.
Qed.

Example C78_applies :
  a_wings (new_airplane (T := R) "finned" None) = [] /\ a_store (new_airplane (T := R) "finned" None) = [] /\
  NoDup (map we_name entries) /\ (forall x y, swap x = swap y -> x = y) /\ swap "" = "" /\
  Permutation (map (rename_entry swap) entries) entries' /\ parents_first entries' /\
  siter enter entries (new_airplane "finned" None) = (Ok tt, finned) /\
  exact_solver (me_lsolve gauss_env) /\
  exists p2 X X', siter enter entries' (new_airplane "finned" None) = (Ok tt, p2) /\ reordered finned p2 /\
    make_machup gauss_env finned = Ok X /\ make_machup gauss_env p2 = Ok X'.
Proof.
  assert (D : NoDup (map we_name entries)) by (cbn; repeat constructor; cbn; intuition discriminate).
  refine (conj eq_refl (conj eq_refl (conj D (conj swap_inj (conj eq_refl (conj entries_perm (conj entries_first (conj entries_run (conj gauss_exact _))))))))).
  destruct (C78_any_order_of_entry (new_airplane "finned" None) _ entries entries' swap eq_refl eq_refl D swap_inj eq_refl entries_perm entries_first entries_run) as (p2 & E2 & Hr).
  destruct finned_made as (X & HX). exists p2, X.
  pose proof (C78_order_does_not_matter gauss_env _ _ Hr gauss_exact) as K. rewrite HX in K.
  destruct (make_machup gauss_env p2) as [X'|]; [|contradiction]. exists X'. auto.
Qed.
