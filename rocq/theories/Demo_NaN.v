(** A number system with a "not a number" in which the model computes: rationals, and [None] for
    everything that has no value.  Square root and the transcendental functions are crude
    rational approximations; nothing in C42 depends on them. *)
From Coq Require Import ZArith QArith String Bool List Lia.
From Verif Require Import Base Num Geometry Api Grid LLModel PropModel Spec_LL MU Spec_MU Demo Demo_LL.
Import ListNotations.
Local Open Scope Q_scope.


Definition QN : Type := option Q.
Definition q1 (f : Q -> Q) (x : QN) : QN := match x with Some x => Some (Qred (f x)) | None => None end.
Definition q2 (f : Q -> Q -> Q) (x y : QN) : QN :=
  match x, y with Some x, Some y => Some (Qred (f x y)) | _, _ => None end.
Definition qc (f : Q -> Q -> bool) (x y : QN) : bool := match x, y with Some x, Some y => f x y | _, _ => false end.
Definition qdiv (x y : QN) : QN :=
  match x, y with Some x, Some y => if Qeq_bool y 0 then None else Some (Qred (x / y)) | _, _ => None end.
#[global] Instance nan_ops : num_ops QN := {
  nadd := q2 Qplus; nsub := q2 Qminus; nmul := q2 Qmult; ndiv := qdiv; nopp := q1 Qopp;
  nabs := q1 (fun x => if Qle_bool 0 x then x else - x);
  nsqrt := q1 (fun x => (1 + x) / (2 # 1)); nsin := q1 (fun x => x); ncos := q1 (fun x => 1 - x * x / (2 # 1));
  ntan := q1 (fun x => x); natan := q1 (fun x => x); natan2 := q2 (fun y x => y); nacos := q1 (fun x => 1 - x);
  nexp := q1 (fun x => 1 + x); ntanh := q1 (fun x => x); npow := q2 (fun x _ => x); npi := Some (22 # 7);
  nltb := qc (fun x y => negb (Qle_bool y x)); nleb := qc Qle_bool; neqb := qc Qeq_bool;
  nint := fun z => Some (inject_Z z);
  ndec := fun m e => Some (Qred (inject_Z m / inject_Z (10 ^ e)))
}.

Lemma nan_has : has_nan nan_ops None.
Proof.
  constructor; try reflexivity; [|now intros [?|]].
  intros x y z. destruct x as [x|], y as [y|], z as [z|]; cbn [ndiv nmul nsub nan_ops q2 qdiv]; try reflexivity.
  replace (Qeq_bool (Qred (z - z)) 0) with true; [reflexivity|]. symmetry. apply Qeq_bool_iff.
  rewrite Qred_correct. ring.
Qed.

(** The flyer in these numbers, with a linear solver that returns the right-hand side. *)
Definition nan_env : menv QN :=
  MkME (fun _ b => Some b) (MkPE (fun _ => Err KeyError) (fun _ _ => Some 0) (fun _ _ _ => Some 0) 1)
       (fun _ => None) (fun x => x) 1.
(** at -0.2 degrees, the angle of attack for which 1.5 * alpha + 0.1 = alpha *)
Definition nan_aero : aero_state QN :=
  MkAero [("V_mag", Some (inject_Z 10)); ("rho", Some (inject_Z 1)); ("alpha", Some ((-1) # 5)%Q)]%string None.
Definition nan_ctl : dict QN := [("elevator"%string, Some 0)].
Definition nan_world (X : machup QN) : world QN (mstate QN) :=
  MkW (Some nan_aero) (Some nan_ctl) (mu_after nan_env X []) [] [].
Definition nan_machup : machup QN :=
  match make_machup nan_env flyer with Ok X => X | Err _ => MkMU None None [] None (V3 None None None) end.
Definition nan_run := target_lift (host_of nan_env nan_machup None) (Some (inject_Z 100)) None (ndec 1 9) (nan_world nan_machup).
(** constructing the object and both first solves succeed, and target_lift gives up after 23 solves *)
Lemma nan_runs : make_machup nan_env flyer = Ok nan_machup /\ mm_props nan_machup = [] /\
  nadd (nmul (Some ((-1) # 5)) (ndec 15 1)) (ndec 1 1) = Some ((-1) # 5) /\
  fst nan_run = Err RuntimeError /\ List.length (w_log (snd nan_run)) = 23%nat.
Proof. refine (conj _ (conj _ (conj _ (conj _ _)))); vm_compute; reflexivity. Qed.
