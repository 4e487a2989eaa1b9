(** Facts about the real instance of the number and vector operations.  No model
    of code here. *)
From Coq Require Import Reals List Lra Lia.
From Verif Require Import Base Num.
Import ListNotations.
Local Open Scope R_scope.

Notation rv := (vec3 R).

Lemma vec_eq (a b : rv) : vx a = vx b -> vy a = vy b -> vz a = vz b -> a = b.
Proof. destruct a, b; simpl; intros; subst; reflexivity. Qed.

(** unfold all vector operations on reals *)
Ltac vunf :=
  unfold vnorm, vdot, vcross, vadd, vsub, vscale, vdivs, vopp, vzero, vey in *;
  rnum; cbn [vx vy vz] in *.
Ltac vring := vunf; try apply vec_eq; cbn [vx vy vz]; ring.

Lemma vdot_self_nonneg (v : rv) : 0 <= vdot v v.
Proof. destruct v as [x y z]; vunf. nra. Qed.

Lemma vdot_self_0 (v : rv) : vdot v v = 0 -> v = vzero.
Proof. destruct v as [x y z]; vunf; intros H. apply vec_eq; cbn; nra. Qed.

Lemma vnorm_nonneg (v : rv) : 0 <= vnorm v.
Proof. unfold vnorm; rnum; apply sqrt_pos. Qed.

Lemma vnorm_sq (v : rv) : vnorm v * vnorm v = vdot v v.
Proof. unfold vnorm; rnum. apply sqrt_sqrt, vdot_self_nonneg. Qed.

Lemma vnorm_0 (v : rv) : vnorm v = 0 -> v = vzero.
Proof. intros H. apply vdot_self_0. rewrite <- vnorm_sq, H. ring. Qed.

Lemma vnorm_zero : vnorm (vzero : rv) = 0.
Proof. unfold vnorm. replace (vdot (vzero : rv) vzero) with 0 by vring. rnum; apply sqrt_0. Qed.

Lemma vnorm_pos (v : rv) : v <> vzero -> 0 < vnorm v.
Proof.
  intros H. destruct (Rle_lt_or_eq_dec _ _ (vnorm_nonneg v)) as [H1|H1]; auto.
  symmetry in H1. apply vnorm_0 in H1. contradiction.
Qed.

Lemma vdot_scale_l k (a b : rv) : vdot (vscale k a) b = k * vdot a b.
Proof. vring. Qed.
Lemma vdot_scale_r k (a b : rv) : vdot a (vscale k b) = k * vdot a b.
Proof. vring. Qed.
Lemma vdot_comm (a b : rv) : vdot a b = vdot b a.
Proof. vring. Qed.
Lemma vdot_add_l (a b c : rv) : vdot (vadd a b) c = vdot a c + vdot b c.
Proof. vring. Qed.
Lemma vdot_add_r (a b c : rv) : vdot c (vadd a b) = vdot c a + vdot c b.
Proof. vring. Qed.
Lemma vdot_sub_l (a b c : rv) : vdot (vsub a b) c = vdot a c - vdot b c.
Proof. vring. Qed.

Lemma vnorm_eq (v : rv) (k : R) : 0 <= k -> vdot v v = k * k -> vnorm v = k.
Proof. intros Hk H. unfold vnorm; rnum. rewrite H. now apply sqrt_square. Qed.

Lemma vnorm_scale k (v : rv) : vnorm (vscale k v) = Rabs k * vnorm v.
Proof.
  apply vnorm_eq.
  - apply Rmult_le_pos; [apply Rabs_pos | apply vnorm_nonneg].
  - rewrite vdot_scale_l, vdot_scale_r.
    transitivity ((Rabs k * Rabs k) * (vnorm v * vnorm v)); [|ring].
    rewrite vnorm_sq. replace (Rabs k * Rabs k) with (k * k); [ring|].
    rewrite <- Rabs_mult. rewrite Rabs_pos_eq; [ring|nra].
Qed.

Lemma vdivs_scale (v : rv) k : vdivs v k = vscale (/ k) v.
Proof. vunf. apply vec_eq; cbn; unfold Rdiv; ring. Qed.

Lemma vdivs_norm_unit (v : rv) : v <> vzero -> vnorm (vdivs v (vnorm v)) = 1.
Proof.
  intros H. pose proof (vnorm_pos v H). rewrite vdivs_scale, vnorm_scale.
  rewrite Rabs_pos_eq; [field; lra|]. left; apply Rinv_0_lt_compat; lra.
Qed.

Lemma vunit_dot (v : rv) : vnorm v = 1 -> vdot v v = 1.
Proof. intros H. rewrite <- vnorm_sq, H. ring. Qed.

Lemma vcross_self (v : rv) : vcross v v = vzero.
Proof. vring. Qed.

Lemma vcross_scale_l k (a b : rv) : vcross (vscale k a) b = vscale k (vcross a b).
Proof. vring. Qed.
Lemma vcross_scale_r k (a b : rv) : vcross a (vscale k b) = vscale k (vcross a b).
Proof. vring. Qed.
Lemma vscale_scale k m (a : rv) : vscale k (vscale m a) = vscale (k * m) a.
Proof. vring. Qed.
Lemma vcross_dot_l (a b : rv) : vdot (vcross a b) a = 0.
Proof. vring. Qed.
Lemma vcross_dot_r (a b : rv) : vdot (vcross a b) b = 0.
Proof. vring. Qed.
Lemma lagrange (a b : rv) :
  vdot (vcross a b) (vcross a b) = vdot a a * vdot b b - vdot a b * vdot a b.
Proof. vring. Qed.

Lemma vadd_comm (a b : rv) : vadd a b = vadd b a.
Proof. vring. Qed.
Lemma vadd_assoc (a b c : rv) : vadd a (vadd b c) = vadd (vadd a b) c.
Proof. vring. Qed.
Lemma vadd_0_l (a : rv) : vadd vzero a = a.
Proof. vring. Qed.
Lemma vadd_0_r (a : rv) : vadd a vzero = a.
Proof. vring. Qed.
Lemma vscale_add k (a b : rv) : vscale k (vadd a b) = vadd (vscale k a) (vscale k b).
Proof. vring. Qed.
Lemma vscale_sub k (a b : rv) : vscale k (vsub a b) = vsub (vscale k a) (vscale k b).
Proof. vring. Qed.
Lemma vscale_0 k : vscale k (vzero : rv) = vzero.
Proof. vring. Qed.

(** sums *)
Lemma nsum_cons (x : R) l : nsum (x :: l) = x + nsum l.
Proof. reflexivity. Qed.
Lemma nsum_nil : nsum ([] : list R) = 0.
Proof. reflexivity. Qed.
Lemma nsum_app (l l' : list R) : nsum (l ++ l') = nsum l + nsum l'.
Proof. induction l as [|x l IH]; [simpl; rewrite nsum_nil; ring|]. simpl app. rewrite !nsum_cons, IH; ring. Qed.
Lemma nsum_scale k (l : list R) : nsum (map (Rmult k) l) = k * nsum l.
Proof. induction l as [|x l IH]; simpl map; [rewrite nsum_nil; ring|]. rewrite !nsum_cons, IH; ring. Qed.

Lemma vsum_cons (x : rv) l : vsum (x :: l) = vadd x (vsum l).
Proof. reflexivity. Qed.
Lemma vsum_nil : vsum ([] : list rv) = vzero.
Proof. reflexivity. Qed.
Lemma vsum_app (l l' : list rv) : vsum (l ++ l') = vadd (vsum l) (vsum l').
Proof.
  induction l as [|x l IH]; [simpl; now rewrite vsum_nil, vadd_0_l|].
  simpl app. now rewrite !vsum_cons, IH, vadd_assoc.
Qed.
Lemma vsum_scale k (l : list rv) : vsum (map (vscale k) l) = vscale k (vsum l).
Proof.
  induction l as [|x l IH]; simpl map; [now rewrite vsum_nil, vscale_0|].
  now rewrite !vsum_cons, IH, vscale_add.
Qed.
Lemma vx_vsum (l : list rv) : vx (vsum l) = nsum (map vx l).
Proof. induction l; simpl map; [reflexivity|]. rewrite vsum_cons, nsum_cons, <- IHl. reflexivity. Qed.
Lemma vy_vsum (l : list rv) : vy (vsum l) = nsum (map vy l).
Proof. induction l; simpl map; [reflexivity|]. rewrite vsum_cons, nsum_cons, <- IHl. reflexivity. Qed.
Lemma vz_vsum (l : list rv) : vz (vsum l) = nsum (map vz l).
Proof. induction l; simpl map; [reflexivity|]. rewrite vsum_cons, nsum_cons, <- IHl. reflexivity. Qed.

(** telescoping sums over consecutive indices *)
Lemma nsum_telescope (F : nat -> R) (f : nat -> R) (a n : nat) :
  (forall i, (a <= i < a + n)%nat -> f i = F (S i) - F i) ->
  nsum (map f (seq a n)) = F (a + n)%nat - F a.
Proof.
  revert a. induction n as [|n IH]; intros a H.
  - simpl. rewrite nsum_nil, Nat.add_0_r. ring.
  - simpl seq. simpl map. rewrite nsum_cons, IH.
    + rewrite H by lia. replace (S a + n)%nat with (a + S n)%nat by lia. ring.
    + intros i Hi. apply H. lia.
Qed.

Lemma nsum_ext {A} (f g : A -> R) l :
  (forall x, In x l -> f x = g x) -> nsum (map f l) = nsum (map g l).
Proof.
  induction l as [|x l IH]; intros H; auto. simpl map. rewrite !nsum_cons.
  rewrite H by (simpl; auto). rewrite IH; auto. intros; apply H; simpl; auto.
Qed.

(** deg to rad *)
Lemma nrad_0 : nrad (0:R) = 0.
Proof. rnum. unfold Rdiv. ring. Qed.

Lemma IZR_nat_nonneg n : 0 <= IZR (Z.of_nat n).
Proof. apply IZR_le. lia. Qed.
