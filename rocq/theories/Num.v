(** Numbers and 3-vectors.

    The model is written once over an arbitrary carrier [T] with the operations
    numpy / math provide.  [num_ops] contains no laws: a theorem quantifying
    over [num_ops T] therefore also speaks about IEEE doubles.  The instance for
    real numbers is used for the numerical theorems. *)
From Coq Require Export Reals.
From Coq Require Import ZArith List.
From Verif Require Import Base.
Import ListNotations.
Set Implicit Arguments.

Class num_ops (T : Type) : Type := {
  nadd : T -> T -> T;
  nsub : T -> T -> T;
  nmul : T -> T -> T;
  ndiv : T -> T -> T;
  nopp : T -> T;
  nabs : T -> T;
  nsqrt : T -> T;
  nsin : T -> T;
  ncos : T -> T;
  ntan : T -> T;
  natan : T -> T;
  natan2 : T -> T -> T;
  nacos : T -> T;
  nexp : T -> T;
  ntanh : T -> T;
  npow : T -> T -> T;
  npi : T;
  nltb : T -> T -> bool;
  nleb : T -> T -> bool;
  neqb : T -> T -> bool;
  nint : Z -> T;              (* an integer literal *)
  ndec : Z -> Z -> T          (* [ndec m e] is the decimal literal m * 10^-e *)
}.

Declare Scope num_scope.
Delimit Scope num_scope with num.
Infix "+" := nadd : num_scope.
Infix "-" := nsub : num_scope.
Infix "*" := nmul : num_scope.
Infix "/" := ndiv : num_scope.
Notation "- x" := (nopp x) : num_scope.
Infix "<?" := nltb : num_scope.
Infix "<=?" := nleb : num_scope.
Infix "=?" := neqb : num_scope.

(** 3-vectors (numpy arrays of shape (3,)) *)
Record vec3 (T : Type) : Type := V3 { vx : T; vy : T; vz : T }.
Arguments V3 {T} vx vy vz.
Arguments vx {T} v.
Arguments vy {T} v.
Arguments vz {T} v.

Section Generic.
  Context {T : Type} {N : num_ops T}.
  Local Open Scope num_scope.

  Definition n0 : T := nint 0.
  Definition n1 : T := nint 1.
  Definition n2 : T := nint 2.
  Definition nnat (n : nat) : T := nint (Z.of_nat n).
  Definition nsq (x : T) : T := x * x.
  (** [a > b] *)
  Definition ngtb (x y : T) : bool := nltb y x.
  (** truth value of a number: [if x:] *)
  Definition ntruthy (x : T) : bool := negb (x =? n0).
  (** np.radians / m.radians and [x*np.pi/180.] *)
  Definition nrad (x : T) : T := x * npi / nint 180.
  (** np.degrees *)
  Definition ndeg (x : T) : T := x * nint 180 / npi.
  (** np.sign *)
  Definition nsign (x : T) : T :=
    if n0 <? x then n1 else if x <? n0 then nopp n1 else n0.
  (** np.sum *)
  Definition nsum (l : list T) : T := fold_right nadd n0 l.

  Definition vzero : vec3 T := V3 n0 n0 n0.
  Definition vadd (a b : vec3 T) : vec3 T := V3 (vx a + vx b) (vy a + vy b) (vz a + vz b).
  Definition vsub (a b : vec3 T) : vec3 T := V3 (vx a - vx b) (vy a - vy b) (vz a - vz b).
  Definition vscale (k : T) (a : vec3 T) : vec3 T := V3 (k * vx a) (k * vy a) (k * vz a).
  Definition vdivs (a : vec3 T) (k : T) : vec3 T := V3 (vx a / k) (vy a / k) (vz a / k).
  Definition vopp (a : vec3 T) : vec3 T := V3 (- vx a) (- vy a) (- vz a).
  (** np.dot / np.einsum over the last axis *)
  Definition vdot (a b : vec3 T) : T := vx a * vx b + vy a * vy b + vz a * vz b.
  (** np.cross *)
  Definition vcross (a b : vec3 T) : vec3 T :=
    V3 (vy a * vz b - vz a * vy b) (vz a * vx b - vx a * vz b) (vx a * vy b - vy a * vx b).
  (** np.linalg.norm *)
  Definition vnorm (a : vec3 T) : T := nsqrt (vdot a a).
  Definition vsum (l : list (vec3 T)) : vec3 T := fold_right vadd vzero l.
  (** y-axis unit vector, the literal [0.,1.,0.] *)
  Definition vey : vec3 T := V3 n0 n1 n0.
End Generic.
Arguments nsum {T N} l : simpl never.
Arguments vsum {T N} l : simpl never.

(** ** The real-number instance *)

Definition Rltb (x y : R) : bool := if Rlt_dec x y then true else false.
Definition Rleb (x y : R) : bool := if Rle_dec x y then true else false.
Definition Reqb (x y : R) : bool := if Req_EM_T x y then true else false.

(** numpy/math [arctan2] on real arguments *)
Definition Ratan2 (y x : R) : R :=
  if Rlt_dec 0 x then atan (y / x)
  else if Rlt_dec x 0 then
         (if Rle_dec 0 y then atan (y / x) + PI else atan (y / x) - PI)%R
       else if Rlt_dec 0 y then (PI / 2)%R
            else if Rlt_dec y 0 then (- (PI / 2))%R else 0%R.

Definition Rdec (m e : Z) : R := (IZR m / IZR (10 ^ e))%R.

#[global] Instance Rnum : num_ops R := {
  nadd := Rplus; nsub := Rminus; nmul := Rmult; ndiv := Rdiv; nopp := Ropp;
  nabs := Rabs; nsqrt := sqrt; nsin := sin; ncos := cos; ntan := tan;
  natan := atan; natan2 := Ratan2; nacos := acos; nexp := exp; ntanh := tanh;
  npow := Rpower; npi := PI; nltb := Rltb; nleb := Rleb; neqb := Reqb;
  nint := IZR; ndec := Rdec
}.

(** Unfolds the real instance so that [ring]/[field]/[lra] see Coq's operations. *)
Ltac rnum :=
  unfold nrad, ndeg, nsq, nnat, n0, n1, n2 in *;
  cbn [nadd nsub nmul ndiv nopp nabs nsqrt nsin ncos ntan natan natan2 nacos nexp
       ntanh npow npi nltb nleb neqb nint ndec Rnum] in *.

Lemma Rltb_true x y : Rltb x y = true <-> (x < y)%R.
Proof. unfold Rltb; destruct (Rlt_dec x y); split; intros; auto; discriminate. Qed.
Lemma Rltb_false x y : Rltb x y = false <-> (y <= x)%R.
Proof.
  unfold Rltb; destruct (Rlt_dec x y) as [H|H]; split; intros K; auto; try discriminate.
  - exfalso. now apply (Rlt_not_le _ _ H).
  - now apply Rnot_lt_le.
Qed.
Lemma Rleb_true x y : Rleb x y = true <-> (x <= y)%R.
Proof. unfold Rleb; destruct (Rle_dec x y); split; intros; auto; discriminate. Qed.
Lemma Rleb_false x y : Rleb x y = false <-> (y < x)%R.
Proof.
  unfold Rleb; destruct (Rle_dec x y) as [H|H]; split; intros K; auto; try discriminate.
  - exfalso. now apply (Rlt_not_le _ _ K).
  - now apply Rnot_le_lt.
Qed.
Lemma Reqb_true x y : Reqb x y = true <-> x = y.
Proof. unfold Reqb; destruct (Req_EM_T x y); split; intros; auto; discriminate. Qed.
Lemma Reqb_false x y : Reqb x y = false <-> x <> y.
Proof. unfold Reqb; destruct (Req_EM_T x y); split; intros; auto; try discriminate; contradiction. Qed.
