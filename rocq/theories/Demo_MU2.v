(** Concrete hosts (airplanes given by formulas for their forces) for the examples of
    Props_MU.v. *)
From Coq Require Import Reals ZArith String Bool Arith Lia Lra List.
From Verif Require Import Base Num RVec Geometry Grid LLModel PropModel Spec_Grid Spec_LL MU Spec_MU
  LL_R Linalg Linalg2 Prop_thm6 MU_thm MU_thm2 MU_thm4 MU_thm6 MU_thm8 MU_thm9 MU_thm10 MU_thm11 Demo_MU.
Import ListNotations.
Local Open Scope string_scope.
Local Open Scope R_scope.

(** Lift and pitching moment affine in angle of attack, elevator and airspeed; the right
    wing stalls at 0.05 degrees. *)
Definition toy_forces (a : dict R) (c : option (dict R)) : fm R :=
  let x := entry a "alpha" in
  let y := match c with Some c => entry c "elevator" | None => 0 end in
  MkFM (entry a "V_mag" + 3 * x + y) 0 0 0 0 0 0 (2 - x - 2 * y) 0.
Definition toy : host R R :=
  {| h_solve := fun a c s => (Ok (toy_forces (an a) c), a, entry (an a) "alpha");
     h_stalled := fun s => Ok (if Rltb s (1 / 20) then None else Some ("right_main", 1 / 2));
     h_refs := Some (MkRefs 8 8 1); h_cg := vzero; h_parts := true |}.
(** the same without stall *)
Definition toy_safe : host R R :=
  {| h_solve := h_solve toy; h_stalled := fun _ => Ok None; h_refs := h_refs toy; h_cg := vzero; h_parts := true |}.
Lemma toy_keeps a c s r a' s' : h_solve toy a c s = (r, a', s') -> an a' = an a /\ (als a <> None -> als a' <> None).
Proof. cbn. intros K. injection K as _ <- _. auto. Qed.

Definition toy_aero : aero_state R := MkAero [("V_mag", 10); ("rho", 1); ("alpha", 1)] None.
Definition toy_ctl : dict R := [("elevator", 1)].

(** *** the stall scan of the toy takes two solves *)
Lemma toy_solve (w : world R R) a : w_aero w = Some a -> given a ->
  do_solve toy w = (Ok (toy_forces (an a) (w_ctl w)),
    MkW (Some a) (w_ctl w) (entry (an a) "alpha") (w_files w) (w_log w ++ [MkCall a (w_ctl w) (Ok (toy_forces (an a) (w_ctl w))) (entry (an a) "alpha")])).
Proof.
  intros Ea Hg. unfold do_solve, raw_solve. rewrite (aero_given_some w a Ea Hg), Ea. reflexivity.
Qed.
Lemma entry_set (d : dict R) k x : entry (dset d k x) k = x.
Proof. unfold entry. now rewrite dget_dset_same. Qed.
Lemma entry_other (d : dict R) k k' x : k' <> k -> entry (dset d k x) k' = entry d k'.
Proof. intros H. unfold entry. rewrite dget_dset_other by congruence. reflexivity. Qed.
Lemma given_set (a : aero_state R) k x : given (MkAero (dset (an a) k x) (als a)).
Proof. left. cbn. destruct (an a) as [|[k' x'] l]; cbn; [discriminate|]. destruct (String.eqb k k'); discriminate. Qed.
Lemma tenth : @ndec R _ 1 1 = 1 / 10.
Proof. rnum. unfold Rdec. cbn. field. Qed.
Lemma toy_step n x (w : world R R) a : w_aero w = Some a ->
  stall_loop toy gauss_env (Datatypes.S n) x w =
  (if Rltb x (1 / 20) then stall_loop toy gauss_env n (nadd x (ndec 1 1))
   else sret (MkStall "right_main" (1 / 2) x (FL (toy_forces (dset (an a) "alpha" x) (w_ctl w))) None))
   (MkW (Some (MkAero (dset (an a) "alpha" x) (als a))) (w_ctl w) x (w_files w)
     (w_log w ++ [MkCall (MkAero (dset (an a) "alpha" x) (als a)) (w_ctl w) (Ok (toy_forces (dset (an a) "alpha" x) (w_ctl w))) x])).
Proof.
  intros Ea. cbn [stall_loop]. unfold sbind. unfold set_aero, smod. rewrite Ea. cbn [option_map put_aero].
  rewrite (toy_solve (put_aero (Some (MkAero (dset (an a) "alpha" x) (als a))) w) _ eq_refl (given_set a "alpha" x)).
  cbn [an als w_ctl put_aero w_files w_log sget w_model]. rewrite entry_set. unfold sget, slift. cbn [w_model].
  change (h_stalled toy x) with (@Ok (option (string * R)) (if Rltb x (1 / 20) then None else Some ("right_main", 1 / 2))).
  destruct (Rltb x (1 / 20)); reflexivity.
Qed.
Lemma toy_onset n (w : world R R) a : w_aero w = Some a ->
  exists w', stall_loop toy gauss_env (Datatypes.S (Datatypes.S n)) 0 w =
    (Ok (MkStall "right_main" (1 / 2) (1 / 10) (FL (toy_forces (dset (an a) "alpha" (1 / 10)) (w_ctl w))) None), w') /\
    w_aero w' = Some (MkAero (dset (an a) "alpha" (1 / 10)) (als a)) /\ w_ctl w' = w_ctl w.
Proof.
  intros Ea. rewrite (toy_step _ 0 w a Ea).
  replace (Rltb 0 (1 / 20)) with true by (symmetry; apply Rltb_true; lra).
  erewrite toy_step by reflexivity. rewrite tenth. replace (nadd 0 (1 / 10)) with (1 / 10) by (rnum; lra).
  replace (Rltb (1 / 10) (1 / 20)) with false by (symmetry; apply Rltb_false; lra).
  cbn [an als w_ctl]. rewrite dset_twice. eexists. split; [reflexivity|]. cbn [w_aero w_ctl an als]. auto.
Qed.
Lemma toy_stall_onset : exists w',
  stall_onset toy gauss_env None (MkW (Some toy_aero) None 0 [] []) =
    (Ok (Answer (MkStall "right_main" (1 / 2) (1 / 10) (10 + 3 / 10) None)), w') /\
  w_aero w' = Some (MkAero (dset (an toy_aero) "alpha" (1 / 10)) None).
Proof.
  set (w := MkW _ _ _ _ _). destruct (toy_onset 98 w toy_aero eq_refl) as (w' & K & K1 & _).
  assert (P : onset_body toy gauss_env w = stall_loop toy gauss_env 100 0 w) by reflexivity.
  rewrite K in P. exists w'. split; [|exact K1].
  unfold stall_onset, sbind. cbn [h_refs toy]. assert (G : aero_given w = true) by reflexivity. rewrite G, P. cbn [sret named write_if].
  unfold toy_forces. cbn [FL w_ctl w]. rewrite entry_set, entry_other by discriminate. cbn [entry dget toy_aero an String.eqb Ascii.eqb Bool.eqb].
  match goal with |- context [MkStall _ _ _ ?x None] => replace x with (10 + 3 / 10) by (unfold entry; cbn; lra) end. reflexivity.
Qed.

Lemma toy_lift (d : dict R) V : FL (toy_forces (dset (dset d "V_mag" V) "alpha" (1 / 10)) None) = V + 3 / 10.
Proof. unfold toy_forces. cbn [FL]. rewrite entry_set, entry_other, entry_set by discriminate. lra. Qed.
Lemma toy_lift' (d : dict R) V x : FL (toy_forces (dset (dset (dset d "V_mag" x) "alpha" (1 / 10)) "V_mag" V) None) = V + entry (dset d "alpha" (1 / 10)) "alpha" * 3.
Proof. unfold toy_forces. cbn [FL]. rewrite entry_set, entry_other, !entry_set by discriminate. lra. Qed.
Lemma toy_body (w : world R R) a : w_aero w = Some a ->
  exists w', onset_body toy gauss_env w =
    (Ok (MkStall "right_main" (1 / 2) (1 / 10) (FL (toy_forces (dset (an a) "alpha" (1 / 10)) (w_ctl w))) None), w') /\
    w_aero w' = Some (MkAero (dset (an a) "alpha" (1 / 10)) (als a)) /\ w_ctl w' = w_ctl w.
Proof. intros Ea. destruct (toy_onset 98 w a Ea) as (w' & K). exists w'. exact K. Qed.
Lemma fifteen : @ndec R _ 15 1 = 3 / 2.
Proof. rnum. unfold Rdec. cbn. field. Qed.
Lemma airspeed_step n weight error x0 y0 x1 y1 (info : stall_info R) (w : world R R) :
  airspeed_loop toy gauss_env (Datatypes.S n) weight error x0 y0 x1 y1 info w =
  (let x2 := nsub x1 (ndiv (nmul y1 (nsub x1 x0)) (nsub y1 y0)) in
   if nltb (nabs (nsub x2 x1)) error then sret (MkStall (si_wing info) (si_span info) (si_alpha info) (si_lift info) (Some x2)) w
   else match onset_body toy gauss_env (put_aero (option_map (fun a => MkAero (dset (an a) "V_mag" x2) (als a)) (w_aero w)) w) with
        | (Ok info', w') => airspeed_loop toy gauss_env n weight error x1 y1 x2 (nsub (si_lift info') weight) info' w'
        | (Err e, w') => (Err e, w')
        end).
Proof. cbn [airspeed_loop]. cbv zeta. destruct (nltb _ _); reflexivity. Qed.
Lemma toy_stall_airspeed : exists w',
  stall_airspeed toy gauss_env 20 None (1 / 1000) (MkW (Some toy_aero) None 0 [] []) =
    (Ok (Answer (MkStall "right_main" (1 / 2) (1 / 10) 20 (Some (197 / 10)))), w').
Proof.
  set (w := MkW _ _ _ _ _).
  assert (K : exists w', airspeed_body toy gauss_env 20 (1 / 1000) toy_aero w =
    (Ok (MkStall "right_main" (1 / 2) (1 / 10) 20 (Some (197 / 10))), w')).
  { unfold airspeed_body, sbind. change (dlookup (an toy_aero) "V_mag") with (@Ok R 10). unfold slift. rewrite fifteen, tenth.
    unfold with_aero. set (d := an toy_aero). cbv zeta.
    destruct (toy_body (put_aero (Some (MkAero (dset d "V_mag" 10) (als toy_aero))) w) _ eq_refl) as (w1 & K1 & _ & C1).
    rewrite K1. cbn [an put_aero w_ctl w]. rewrite toy_lift. cbn [si_lift].
    replace (nadd (nmul 10 (3 / 2)) (1 / 10)) with (151 / 10) by (rnum; lra).
    destruct (toy_body (put_aero (Some (MkAero (dset d "V_mag" (151 / 10)) (als toy_aero))) (put_aero (w_aero w) w1)) _ eq_refl) as (w2 & K2 & A2 & C2).
    cbn [put_aero w_ctl] in C1, C2, K2. rewrite C1 in K2, C2. rewrite K2. cbn [an w_ctl w put_aero]. rewrite toy_lift. cbn [si_lift].
    set (i2 := MkStall _ _ _ _ _).
    change (me_fuel gauss_env) with (Datatypes.S (Datatypes.S 98)). generalize 98%nat. intros fuel.
    assert (X2 : nsub (151 / 10) (ndiv (nmul (nsub (151 / 10 + 3 / 10) 20) (nsub (151 / 10) 10)) (nsub (nsub (151 / 10 + 3 / 10) 20) (nsub (10 + 3 / 10) 20))) = 197 / 10).
    { rnum. field_simplify; lra. }
    assert (L1 : nltb (nabs (nsub (197 / 10) (151 / 10))) (1 / 1000) = false).
    { rnum. apply Rltb_false. rewrite Rabs_right; lra. }
    rewrite airspeed_step. cbv zeta. rewrite X2, L1. rewrite A2. cbn [option_map an als].
    destruct (toy_body (put_aero (Some (MkAero (dset (dset (dset d "V_mag" (151 / 10)) "alpha" (1 / 10)) "V_mag" (197 / 10)) (als toy_aero))) w2) _ eq_refl)
      as (w3 & K3 & _ & _).
    rewrite K3. cbn [put_aero an w_ctl]. rewrite C2. cbn [w_ctl w].
    set (i3 := MkStall _ _ _ _ None).
    assert (L3 : si_lift i3 = 20).
    { unfold i3. cbn [si_lift]. unfold toy_forces. cbn [FL]. rewrite entry_set, entry_other, entry_set by discriminate. lra. }
    rewrite airspeed_step. cbv zeta. rewrite L3.
    assert (X3 : nsub (197 / 10) (ndiv (nmul (nsub 20 20) (nsub (197 / 10) (151 / 10))) (nsub (nsub 20 20) (nsub (151 / 10 + 3 / 10) 20))) = 197 / 10).
    { rnum. field_simplify; lra. }
    assert (L4 : nltb (nabs (nsub (197 / 10) (197 / 10))) (1 / 1000) = true).
    { rnum. apply Rltb_true. rewrite Rabs_right; lra. }
    rewrite X3, L4. eexists. unfold sret. reflexivity. }
  destruct K as (w' & K). exists w'. unfold stall_airspeed, sbind. cbn [h_refs toy].
  change (opt_truthy aero_truthy (w_aero w)) with (Some toy_aero). cbv iota. rewrite K. reflexivity.
Qed.
