(** When the propeller solver returns (C87). *)
From Coq Require Import Reals ZArith String Bool Arith Lia Lra List.
From Verif Require Import Base Num RVec Geometry Api Grid LLModel PropModel Spec_Grid Spec_Geom Spec_LL Spec_Prop Spec_Few
  Prop_thm6 Prop_thm7 Prop_state Prop_thm2 Prop_few Demo_Twin Demo_TwinD.
Import ListNotations.
Local Open Scope string_scope.
Local Open Scope R_scope.

(** *** C87 *)
(** Propellers whose settings fix the rotation rate, after any history of calls (also of calls
    that raised): the solver raises no exception; it can only fail to end ([OutOfFuel]: more
    than [pe_fuel E] rounds, for any bound on the rounds). *)
Theorem C87_accepted_settings_never_raise :
  forall E (pl : airplane R) pts gs cg n a ps V rho h,
    make_props E pl pts = Ok gs -> a_props pl <> [] ->
    (forall p, In p (map snd (a_props pl)) -> pr_nodes p <> 0%nat) ->
    dget (an a) "V_mag" = Some V -> dget (an a) "rho" = Some rho ->
    cos (degrees (entry (an a) "alpha")) <> 0 \/ cos (degrees (entry (an a) "beta")) <> 0 ->
    (forall p, In p (map snd (a_props pl)) -> accepted V (setting_of ps (pr_name p))) ->
    let r := fst (props_solve E cg n (Some a) ps gs (props_after E n gs h)) in
    (exists x, r = Ok x) \/ r = Err OutOfFuel.
Proof.
  intros E pl pts gs cg n a ps V rho h Hm Hne Hn HV Hr Ha Hs r.
  destruct (props_ended True E cg a ps V rho HV Hr Ha pl pts gs n (props_after E n gs h) Hm Hne (props_after_length E n gs h)
    ltac:(intros p Hp; auto)) as [K|[_ K]]; [left; exact K|right; exact K].
Qed.
Print Assumptions C87_accepted_settings_never_raise.

(** With one or two nodes per blade it always ends, within 51 rounds per propeller. *)
Theorem C87_few_nodes_always_return :
  forall E (pl : airplane R) pts gs cg n a ps V rho h,
    make_props E pl pts = Ok gs -> a_props pl <> [] -> (51 <= pe_fuel E)%nat ->
    (forall p, In p (map snd (a_props pl)) -> (0 < pr_nodes p < 3)%nat) ->
    dget (an a) "V_mag" = Some V -> dget (an a) "rho" = Some rho ->
    cos (degrees (entry (an a) "alpha")) <> 0 \/ cos (degrees (entry (an a) "beta")) <> 0 ->
    (forall p, In p (map snd (a_props pl)) -> accepted V (setting_of ps (pr_name p))) ->
    exists x, fst (props_solve E cg n (Some a) ps gs (props_after E n gs h)) = Ok x.
Proof.
  intros E pl pts gs cg n a ps V rho h Hm Hne Hf Hn HV Hr Ha Hs.
  destruct (props_ended False E cg a ps V rho HV Hr Ha pl pts gs n (props_after E n gs h) Hm Hne (props_after_length E n gs h)) as [K|[[] _]]; [|exact K].
  intros p Hp. pose proof (Hn p Hp). split; [lia|]. split; [right; lia|auto].
Qed.
Print Assumptions C87_few_nodes_always_return.

(** Two engines with two nodes each, one set by advance ratio, one by rotation rate. *)
Definition both_set : option (dict (pval R)) :=
  Some [("left", PDict [("J", PNum (/ 2))]); ("right", PDict [("rot_per_sec", PNum 30)])].
Example C87_applies : exists gs,
  make_props fair_env twin (Some two_points) = Ok gs /\ a_props twin <> [] /\ (51 <= pe_fuel fair_env)%nat /\
  (forall p, In p (map snd (a_props twin)) -> (0 < pr_nodes p < 3)%nat) /\
  dget (an cruise) "V_mag" = Some 100 /\ dget (an cruise) "rho" = Some (1 / 400) /\
  cos (degrees (entry (an cruise) "alpha")) <> 0 /\
  (forall p, In p (map snd (a_props twin)) -> accepted 100 (setting_of both_set (pr_name p))).
Proof.
  destruct (engine_make fair_env (Some "English") (Some two_points) "left" (-5) "CCW") as (g & Hg & _).
  destruct (engine_make fair_env (Some "English") (Some two_points) "right" 5 "CW") as (g' & Hg' & _).
  exists [g; g']. split.
  { unfold make_props, twin. cbn [winged a_props map snd rmap]. unfold get_units. cbn [winged a_units rbind]. unfold left_engine, right_engine. rewrite Hg.
    rewrite Hg'. reflexivity. }
  split; [discriminate|]. split; [cbn [fair_env pe_fuel]; lia|]. split.
  { intros p [<- | [<- | []]]; cbn; lia. }
  split; [reflexivity|]. split; [reflexivity|]. split.
  { unfold entry, cruise. cbn [an dget String.eqb Ascii.eqb Bool.eqb]. unfold degrees. replace (0 * PI / 180) with 0 by field. rewrite cos_0. lra. }
  intros p [<- | [<- | []]]; right; eexists; (split; [reflexivity|]).
  - left. exists (/ 2). split; [reflexivity|]. split; lra.
  - right. right. exists 30. split; [reflexivity|]. split; [reflexivity|lra].
Qed.
