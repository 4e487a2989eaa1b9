(** Airplanes with propellers seen in the mirror (C79), the order of the propellers (C80),
    counter-rotating twins (C81). *)
From Coq Require Import Reals ZArith String Bool Arith Lia Lra List Permutation.
From Verif Require Import Base Num RVec Geometry Api Grid LLModel PropModel Spec_Grid Spec_Geom Spec_LL Spec_Prop MU Spec_MU
  Spec_Mirror Spec_MirrorProp Prop_thm7 Demo_LL Demo_MU Prop_mirror MU_mirror2 MU_order3 Demo_Twin.
Import ListNotations.
Local Open Scope string_scope.
Local Open Scope R_scope.

(** *** C79 *)
(** [pl'] is the airplane [pl] with the propellers (turning the other way) and the centre of
    gravity on the other side; flow, rates, ailerons and rudder change sign in the calls.
    Either both constructions raise the same exception or every call of any sequence raises
    the same exception or returns forces and moments seen in the mirror. *)
Theorem C79_mirrored_propellers :
  forall E pl pl' calls calls',
    built pl -> mirror_symmetric pl -> mirrored_airplane pl pl' -> exact_solver (me_lsolve E) ->
    Forall2 mirrored_args calls calls' ->
    match make_machup E pl, make_machup E pl' with
    | Ok X, Ok X' => Forall2 mirrored_outcome (solve_all E X (init_mstate X) calls) (solve_all E X' (init_mstate X') calls')
    | Err e, Err e' => e' = e
    | _, _ => False
    end.
Proof. exact C79_lemma. Qed.
Print Assumptions C79_mirrored_propellers.

(** A propeller to the left of the wing turning one way, to the right turning the other way,
    in straight flight. *)
Example C79_applies :
  built lopsided /\ mirror_symmetric lopsided /\ mirrored_airplane lopsided lopsided' /\
  Forall2 mirrored_args [twin_call] [twin_call] /\
  exists E X f, exact_solver (me_lsolve E) /\ make_machup E lopsided = Ok X /\ List.length (mm_props X) = 1%nat /\
    solve_all E X (init_mstate X) [twin_call] = [Ok f].
Proof.
  split; [exact lopsided_built|]. split; [exact (winged_symmetric _)|]. split; [exact lopsided_mirrored|]. split.
  - constructor; [|constructor]. split; [split; discriminate|exact cruise_mirrored|exact I|reflexivity].
  - destruct twin_solves as (E & H1 & _ & _ & X & f & H2 & _ & H3 & H4). exists E, X, f. auto.
Qed.
(** The other one then returns the mirrored forces. *)
Example C79_used : exists E X X' f f', make_machup E lopsided = Ok X /\ make_machup E lopsided' = Ok X' /\
  solve_all E X (init_mstate X) [twin_call] = [Ok f] /\ solve_all E X' (init_mstate X') [twin_call] = [Ok f'] /\ mirrored_forces f f'.
Proof.
  destruct C79_applies as (A & B & C & D & E & X & f & H1 & H2 & _ & H4).
  pose proof (C79_mirrored_propellers E lopsided lopsided' [twin_call] [twin_call] A B C H1 D) as K. rewrite H2 in K.
  destruct (make_machup E lopsided') as [X'|e] eqn:EX; [|contradiction]. rewrite H4 in K.
  inversion K as [|r r' l l' Kf Kl E1 E2]. subst. inversion Kl. subst. destruct r' as [f'|e]; [|contradiction].
  exists E, X, X', f, f'. auto 6.
Qed.
(** Sideslip to one side with one aileron and rudder, and to the other side. *)
Definition slipping (b a r : R) : solve_args :=
  MkArgs (MkAero [("V_mag", 100); ("rho", 1 / 400); ("alpha", 2); ("beta", b); ("roll_rate", a)] None)
         (Some [("aileron", a); ("rudder", r); ("elevator", 1)]) half_J.
Example C79_calls : Forall2 mirrored_args [slipping 3 1 2; twin_call] [slipping (-3) (-1) (-2); twin_call].
Proof.
  constructor; [|constructor; [|constructor]].
  - split; [split; discriminate| | |reflexivity].
    + split; try reflexivity; try (split; reflexivity); cbn; lra.
    + cbn [slipping sa_ctl]. split; [discriminate|]. split; [discriminate|]. split; try reflexivity; cbn; lra.
  - split; [split; discriminate|exact cruise_mirrored|exact I|reflexivity].
Qed.

(** *** C80 *)
(** The same propellers entered in another order: every sequence of solves that returns
    returns the same dictionaries of forces and moments. *)
Theorem C80_order_of_propellers :
  forall E pl pl' X, reordered_props pl pl' -> make_machup E pl = Ok X ->
  exists X', make_machup E pl' = Ok X' /\
    forall calls, Forall (fun i => an (sa_aero i) <> []) calls ->
      Forall returned (solve_all E X (init_mstate X) calls) ->
      solve_all E X' (init_mstate X') calls = solve_all E X (init_mstate X) calls.
Proof. exact C80_lemma. Qed.
Print Assumptions C80_order_of_propellers.
Example C80_applies : exists E X f, reordered_props twin twin_swapped /\ make_machup E twin = Ok X /\
  Forall (fun i => an (sa_aero i) <> []) [twin_call] /\ solve_all E X (init_mstate X) [twin_call] = [Ok f] /\
  a_props twin_swapped <> a_props twin.
Proof.
  destruct twin_solves as (E & _ & _ & (X & f & H1 & _ & _ & H2) & _). exists E, X, f.
  split; [exact twin_reordered|]. split; [exact H1|]. split; [constructor; [discriminate|constructor]|]. split; [exact H2|discriminate].
Qed.

(** *** C81 *)
(** A mirror-symmetric airplane with its centre of gravity in the plane of symmetry and
    counter-rotating twin propellers carries no side force, rolling or yawing moment in
    symmetric flight.  The contents of uninitialised memory, which the blade analysis reads
    (C52), are supposed the same for both twins. *)
Theorem C81_twins_balance :
  forall E pl X calls,
    built pl -> mirror_symmetric pl -> vy (a_cg pl) = 0 -> twin_propellers pl ->
    exact_solver (me_lsolve E) -> (forall n n', pe_mem (me_prop E) n = pe_mem (me_prop E) n') ->
    make_machup E pl = Ok X -> Forall (symmetric_args pl) calls ->
    Forall returned (solve_all E X (init_mstate X) calls) ->
    Forall (fun r => exists f, r = Ok f /\ no_lateral_loads f) (solve_all E X (init_mstate X) calls).
Proof. exact C81_lemma. Qed.
Print Assumptions C81_twins_balance.
Example C81_applies : exists E X f,
  built twin /\ mirror_symmetric twin /\ vy (a_cg twin) = 0 /\ twin_propellers twin /\
  exact_solver (me_lsolve E) /\ (forall n n', pe_mem (me_prop E) n = pe_mem (me_prop E) n') /\
  make_machup E twin = Ok X /\ Forall (symmetric_args twin) [twin_call] /\
  solve_all E X (init_mstate X) [twin_call] = [Ok f].
Proof.
  destruct twin_solves as (E & H1 & H2 & (X & f & H3 & _ & _ & H4) & _). exists E, X, f.
  split; [exact twin_built|]. split; [exact (winged_symmetric _)|]. split; [reflexivity|]. split; [exact twin_twins|].
  split; [exact H1|]. split; [exact H2|]. split; [exact H3|]. split; [|exact H4].
  constructor; [|constructor]. split.
  - split; [discriminate|reflexivity].
  - split; reflexivity.
  - intros d e e' Ed I1 I2 _. unfold twin_call, half_J in Ed. cbn [sa_prop] in Ed. injection Ed as <-.
    destruct I1 as [<- | [<- | []]], I2 as [<- | [<- | []]]; reflexivity.
Qed.
