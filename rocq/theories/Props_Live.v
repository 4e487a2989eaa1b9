(** Property theorems: editing an airplane that is already in use (C84). *)
From Coq Require Import Reals String List.
From Verif Require Import Base Num Geometry Api Grid LLModel PropModel Spec_LL MU Spec_MU Spec_Units Live Spec_Live
  Demo_LL Demo_MU Prop_thm7 MU_live.
Import ListNotations.
Local Open Scope string_scope.
Local Open Scope R_scope.

(** ** C84: edits after the MachUp object was made *)

(** Any sequence of edits and requests: the replies are those of the object as it was made,
    with the centre of gravity of the moment. *)
Theorem C84_edits_and_requests :
  forall (E : menv R) pl X s evs,
    make_machup E pl = Ok X -> no_new_kind pl evs ->
    live_session E X pl s evs = cg_session E X (a_cg pl) s evs.
Proof. exact C84_lemma. Qed.
Print Assumptions C84_edits_and_requests.

(** So all edits except cg_location could be left out: no reply changes. *)
Theorem C84_other_edits_have_no_effect :
  forall (E : menv R) pl X s evs,
    make_machup E pl = Ok X -> no_new_kind pl evs ->
    live_session E X pl s (filter kept evs) = live_session E X pl s evs.
Proof. exact C84_erase. Qed.
Print Assumptions C84_other_edits_have_no_effect.

(** And cg_location acts as if the object were made again from the edited airplane. *)
Theorem C84_cg_location_as_if_rebuilt :
  forall (E : menv R) pl X cs,
    make_machup E pl = Ok X -> Forall is_cg cs ->
    exists X', make_machup E (run_calls cs pl) = Ok X' /\ init_mstate X' = init_mstate X /\
      forall s rs, live_session E X pl s (map Edit cs ++ map Ask rs) = session E X' s rs.
Proof. exact C84_rebuilt. Qed.
Print Assumptions C84_cg_location_as_if_rebuilt.

(** "An airplane may be extended at any time" is false: after the first propeller, or the
    first wing, every solve raises AttributeError. *)
Theorem C84_extended_too_late_refuted :
  forall (E : menv R) pl X pl' i s,
    make_machup E pl = Ok X -> given (fst (fst i)) ->
    (a_props pl = [] /\ a_props pl' <> []) \/ (a_wings pl = [] /\ a_wings pl' <> [] /\ a_props pl' = []) ->
    serve_live E X pl' (Ask_solve i) s = (Err AttributeError, s).
Proof.
  intros E pl X pl' i s H Hg [(H1 & H2)|(H1 & H2 & H3)]; [now apply (late_prop E pl)|now apply (late_wing E pl)].
Qed.
Print Assumptions C84_extended_too_late_refuted.

(** The hypotheses are met: the flyer of Demo_LL.v solved, given a second wing, other
    sections, reference lengths and a new centre of gravity, and solved again ... *)
Definition level : inputs := (straight 10 1, None, None).
Definition edited : list event :=
  [ Ask (Ask_solve level);
    Edit (CAddWing "second" (None, "tip") "both" []); Edit (CAirfoil 0 "other" "both" [("CL_alpha", VInt 5)]);
    Edit (CRef (Some 3) (Some 2)); Edit (CCg (Some 1) None (Some 0));
    Ask (Ask_solve level); Ask (Ask_derivatives level) ].
Example C84_met : forall E, make_machup E flyer = Ok flyer_machup /\ no_new_kind flyer edited /\
  Forall is_cg [CCg (Some 1) None (Some 0)] /\ filter kept edited <> edited.
Proof.
  intros E. split; [apply flyer_made|]. split; [|split; [repeat constructor|discriminate]].
  split.
  - left. rewrite flyer_eq. discriminate.
  - right. repeat constructor; intros [].
Qed.
(** ... and the same flyer given its first propeller. *)
Example C84_refuted_met : forall E, make_machup E flyer = Ok flyer_machup /\ given (fst (fst level)) /\ a_props flyer = [] /\
  a_props (run_call (CAddProp "nose" [("position", VList [VInt 1; VInt 0; VInt 0])]) flyer) <> [].
Proof.
  intros E. split; [apply flyer_made|]. split; [left; discriminate|]. rewrite flyer_eq. split; [reflexivity|].
  assert (K : exists p, make_prop (T := R) "nose" [("position", VList [VInt 1; VInt 0; VInt 0])] = Ok p) by (eexists; reflexivity).
  destruct K as [p K]. unfold run_call, add_prop. rewrite K. discriminate.
Qed.
