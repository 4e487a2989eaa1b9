(** Python-level infrastructure of the model: exceptions as values, a
    state-and-exception monad, dictionaries.  Nothing here models a particular
    line of /repo; it fixes the meaning of the Python constructs the code uses. *)
From Coq Require Export String ZArith Arith Lia Bool List.
Export ListNotations.
Set Implicit Arguments.

(** ** Exceptions *)

(** The exception classes that the modelled code can raise.  [OutOfFuel] is not
    a Python exception: it marks an execution that was cut off by the fuel
    argument of a loop or recursion, i.e. one that had not terminated yet. *)
Inductive exn : Type :=
| RuntimeError | KeyError | TypeError | AttributeError | ZeroDivisionError
| UnboundLocalError | LinAlgError | IndexError | ValueError | OutOfFuel.

Inductive res (A : Type) : Type := Ok (a : A) | Err (e : exn).
Arguments Ok {A} a.
Arguments Err {A} e.

Definition rbind {A B} (x : res A) (f : A -> res B) : res B :=
  match x with Ok a => f a | Err e => Err e end.
Notation "'rlet' x := a 'in' b" := (rbind a (fun x => b))
  (at level 200, x pattern, a at level 100, b at level 200).

(** Sequencing of a fallible computation over a list (a [for] loop that
    appends to a list and stops at the first exception). *)
Fixpoint rmap {A B} (f : A -> res B) (l : list A) : res (list B) :=
  match l with
  | [] => Ok []
  | x :: xs => rlet y := f x in rlet ys := rmap f xs in Ok (y :: ys)
  end.

(** ** State and exceptions

    A Python procedure acting on mutable objects: it returns a value or raises,
    and in both cases the objects are left in a definite state. *)
Definition st (S A : Type) : Type := S -> res A * S.
Definition sret {S A} (a : A) : st S A := fun s => (Ok a, s).
Definition sraise {S A} (e : exn) : st S A := fun s => (Err e, s).
Definition sbind {S A B} (m : st S A) (f : A -> st S B) : st S B :=
  fun s => match m s with
           | (Ok a, s') => f a s'
           | (Err e, s') => (Err e, s')
           end.
Definition sget {S A} (f : S -> A) : st S A := fun s => (Ok (f s), s).
Definition smod {S} (f : S -> S) : st S unit := fun s => (Ok tt, f s).
Definition slift {S A} (x : res A) : st S A := fun s => (x, s).
Notation "x <- m ;; k" := (sbind m (fun x => k))
  (at level 61, m at next level, right associativity).
Notation "m ;;; k" := (sbind m (fun _ => k))
  (at level 61, right associativity).

(** ** Dictionaries

    Association lists with the semantics of Python's insertion-ordered [dict]:
    assignment to an existing key replaces the value in place, a new key goes
    to the end. *)
Definition dict (V : Type) : Type := list (string * V).

Fixpoint dget {V} (d : dict V) (k : string) : option V :=
  match d with
  | [] => None
  | (k', v) :: r => if String.eqb k k' then Some v else dget r k
  end.

Fixpoint dset {V} (d : dict V) (k : string) (v : V) : dict V :=
  match d with
  | [] => [(k, v)]
  | (k', v') :: r => if String.eqb k k' then (k', v) :: r else (k', v') :: dset r k v
  end.

(** [k in d] *)
Definition dmem {V} (d : dict V) (k : string) : bool :=
  match dget d k with Some _ => true | None => false end.
(** [d.get(k, default)] *)
Definition dgetd {V} (d : dict V) (k : string) (v : V) : V :=
  match dget d k with Some x => x | None => v end.
(** [d[k]] *)
Definition dlookup {V} (d : dict V) (k : string) : res V :=
  match dget d k with Some x => Ok x | None => Err KeyError end.
(** truth value of a dictionary *)
Definition dtruthy {V} (d : dict V) : bool :=
  match d with [] => false | _ => true end.

Lemma dget_dset_same V (d : dict V) k v : dget (dset d k v) k = Some v.
Proof.
  induction d as [|[k' v'] r IH]; simpl.
  - now rewrite String.eqb_refl.
  - destruct (String.eqb k k') eqn:E; simpl; rewrite E; auto.
Qed.

Lemma dget_dset_other V (d : dict V) k k' v :
  k <> k' -> dget (dset d k v) k' = dget d k'.
Proof.
  intros Hne. induction d as [|[k0 v0] r IH]; simpl.
  - destruct (String.eqb_spec k' k); congruence.
  - destruct (String.eqb_spec k k0) as [->|H]; simpl.
    + destruct (String.eqb_spec k' k0); congruence.
    + destruct (String.eqb k' k0); auto.
Qed.

Lemma dget_dset V (d : dict V) k k' v :
  dget (dset d k v) k' = if String.eqb k k' then Some v else dget d k'.
Proof.
  destruct (String.eqb_spec k k') as [->|H].
  - apply dget_dset_same.
  - now apply dget_dset_other.
Qed.

Lemma dset_truthy V (d : dict V) k v : dtruthy (dset d k v) = true.
Proof. destruct d as [|[k' v'] r]; simpl; auto. destruct (String.eqb k k'); auto. Qed.

Lemma dgetd_dset_same V (d : dict V) k v w : dgetd (dset d k v) k w = v.
Proof. unfold dgetd. now rewrite dget_dset_same. Qed.

Lemma dgetd_dset_other V (d : dict V) k k' v w :
  k <> k' -> dgetd (dset d k v) k' w = dgetd d k' w.
Proof. intros H. unfold dgetd. now rewrite dget_dset_other. Qed.

Lemma dset_twice V (d : dict V) k v w : dset (dset d k v) k w = dset d k w.
Proof.
  induction d as [|[k' v'] r IH]; simpl.
  - now rewrite String.eqb_refl.
  - destruct (String.eqb k k') eqn:E; simpl; rewrite E; congruence.
Qed.

(** Two dictionaries with the same content (the Python equality [d == d']). *)
Definition dict_eq {V} (d d' : dict V) : Prop := forall k, dget d k = dget d' k.

Definition dkeys {V} (d : dict V) : list string := map fst d.

Lemma dset_keys_in V (d : dict V) k v : dget d k <> None -> dkeys (dset d k v) = dkeys d.
Proof.
  unfold dkeys.
  induction d as [|[k' v'] r IH]; simpl; intros H; [congruence|].
  destruct (String.eqb k k') eqn:E; simpl; auto.
  f_equal; apply IH; exact H.
Qed.

Lemma dset_keys_new V (d : dict V) k v : dget d k = None -> dkeys (dset d k v) = dkeys d ++ [k].
Proof.
  unfold dkeys.
  induction d as [|[k' v'] r IH]; simpl; intros H; auto.
  destruct (String.eqb k k') eqn:E; [congruence|]. simpl. f_equal. auto.
Qed.

(** ** Lists used as numpy arrays *)
Fixpoint map2 {A B C} (f : A -> B -> C) (l : list A) (l' : list B) : list C :=
  match l, l' with
  | x :: xs, y :: ys => f x y :: map2 f xs ys
  | _, _ => []
  end.

Lemma map2_length A B C (f : A -> B -> C) l l' :
  List.length l = List.length l' -> List.length (map2 f l l') = List.length l.
Proof. revert l'; induction l; destruct l'; simpl; intros; try lia. rewrite IHl; lia. Qed.

Lemma map2_map A B C D E (f : A -> B -> C) (g : D -> A) (h : E -> B) l l' :
  map2 f (map g l) (map h l') = map2 (fun x y => f (g x) (h y)) l l'.
Proof. revert l'; induction l; destruct l'; simpl; auto. now rewrite IHl. Qed.

Lemma map_map2 A B C D (f : C -> D) (g : A -> B -> C) l l' :
  map f (map2 g l l') = map2 (fun x y => f (g x y)) l l'.
Proof. revert l'; induction l; destruct l'; simpl; auto. now rewrite IHl. Qed.

Lemma nth_map2 A B C (f : A -> B -> C) l l' i da db dc :
  i < List.length l -> i < List.length l' ->
  nth i (map2 f l l') dc = f (nth i l da) (nth i l' db).
Proof.
  revert l' i; induction l as [|x xs IH]; destruct l' as [|y ys], i; simpl; intros; try lia; auto.
  apply IH; lia.
Qed.

Lemma map2_ext A B C (f g : A -> B -> C) l l' :
  (forall x y, f x y = g x y) -> map2 f l l' = map2 g l l'.
Proof. intros H; revert l'; induction l; destruct l'; simpl; auto. now rewrite H, IHl. Qed.

Lemma map2_nth_error A B C (f : A -> B -> C) l l' i :
  nth_error (map2 f l l') i =
  match nth_error l i, nth_error l' i with
  | Some x, Some y => Some (f x y) | _, _ => None end.
Proof.
  revert l' i; induction l as [|x xs IH]; destruct l' as [|y ys], i; simpl; auto.
  - destruct (nth_error xs i); auto.
Qed.
