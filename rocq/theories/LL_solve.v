(** The linear system and the section loads over the reals (C21, C22, C28, C30). *)
From Coq Require Import Reals ZArith String Bool Arith Lia Lra List.
From Verif Require Import Base Num RVec Geometry Grid LLModel Spec_Grid Spec_LL LL_state LL_R Grid_thm.
Import ListNotations.
Local Open Scope R_scope.

Lemma mapi_from_nth {A B} (f : nat -> A -> B) l : forall k i,
  nth_error (mapi_from f k l) i = option_map (f (k + i)%nat) (nth_error l i).
Proof.
  induction l as [|x l IH]; intros k [|i]; simpl; auto.
  - now rewrite Nat.add_0_r.
  - rewrite IH. now rewrite Nat.add_succ_r.
Qed.
Lemma mapi_nth {A B} (f : nat -> A -> B) l i : nth_error (mapi f l) i = option_map (f i) (nth_error l i).
Proof. unfold mapi. rewrite mapi_from_nth. reflexivity. Qed.
Lemma mapi_from_length {A B} (f : nat -> A -> B) l : forall k, List.length (mapi_from f k l) = List.length l.
Proof. induction l; simpl; auto. Qed.
Lemma mapi_length {A B} (f : nat -> A -> B) l : List.length (mapi f l) = List.length l.
Proof. apply mapi_from_length. Qed.
Lemma map_mapi_from {A B C} (h : B -> C) (f : nat -> A -> B) l : forall k,
  map h (mapi_from f k l) = mapi_from (fun i x => h (f i x)) k l.
Proof. induction l; simpl; intros; congruence. Qed.
Lemma map_mapi {A B C} (h : B -> C) (f : nat -> A -> B) l : map h (mapi f l) = mapi (fun i x => h (f i x)) l.
Proof. apply map_mapi_from. Qed.
Lemma mapi_from_map {A B C} (h : A -> B) (f : nat -> B -> C) l : forall k,
  mapi_from f k (map h l) = mapi_from (fun i x => f i (h x)) k l.
Proof. induction l; simpl; intros; congruence. Qed.
Lemma mapi_map {A B C} (h : A -> B) (f : nat -> B -> C) l : mapi f (map h l) = mapi (fun i x => f i (h x)) l.
Proof. apply mapi_from_map. Qed.
Lemma mapi_from_ext {A B} (f f' : nat -> A -> B) l : (forall i x, f i x = f' i x) -> forall k,
  mapi_from f k l = mapi_from f' k l.
Proof. intros H. induction l; simpl; intros; auto. now rewrite H, IHl. Qed.
Lemma mapi_ext {A B} (f f' : nat -> A -> B) l : (forall i x, f i x = f' i x) -> mapi f l = mapi f' l.
Proof. intros; now apply mapi_from_ext. Qed.
Lemma nth_error_ext {A} (l l' : list A) : (forall i, nth_error l i = nth_error l' i) -> l = l'.
Proof.
  revert l'. induction l as [|x l IH]; intros [|y l'] H; auto.
  - specialize (H 0%nat). discriminate.
  - specialize (H 0%nat). discriminate.
  - pose proof (H 0%nat) as H0. simpl in H0. inversion H0; subst. f_equal. apply IH. intros i. exact (H (S i)).
Qed.

Lemma solve_cells_nth u cg all gam cs : forall gs k i, List.length cs = List.length gs ->
  nth_error (solve_cells_from (T := R) u cg all gam k cs gs) i =
  match nth_error cs i, nth_error gs i with
  | Some c, Some y => Some (solve_cell cg y (total_velocity u all gam (k + i) c) c)
  | _, _ => None
  end.
Proof.
  induction cs as [|c cs IH]; intros [|y gs] k i H; try discriminate.
  - destruct i; reflexivity.
  - destruct i as [|i]; simpl.
    + now rewrite Nat.add_0_r.
    + rewrite IH by (simpl in H; lia). now rewrite Nat.add_succ_r.
Qed.
Lemma solve_cells_length u cg all gam cs : forall gs k, List.length cs = List.length gs ->
  List.length (solve_cells_from (T := R) u cg all gam k cs gs) = List.length cs.
Proof. induction cs; intros [|y gs] k H; try discriminate; simpl; auto. Qed.

Lemma vdot_vsum n l : vdot n (vsum l : vec3 R) = nsum (map (vdot n) l).
Proof.
  induction l as [|x l IH]; [cbn [map]; rewrite vsum_nil, nsum_nil; vring|].
  simpl map. rewrite vsum_cons, nsum_cons, vdot_add_r, IH. reflexivity.
Qed.

Lemma nsum_map2_comm (a b : list R) : nsum (map2 Rmult a b) = nsum (map2 Rmult b a).
Proof.
  revert b. induction a as [|x a IH]; intros [|y b]; simpl; auto. rewrite !nsum_cons, IH. ring.
Qed.

(** A square matrix row: diagonal term plus the rest. *)
Lemma row_diag (k : R) (ex : R) (f : nat -> cell R -> R) (cs : list (cell R)) (gam : list R) i :
  forall k0, List.length gam = List.length cs ->
  nsum (map2 Rmult (mapi_from (fun j c => if Nat.eqb i j then k * f j c + ex else k * f j c) k0 cs) gam)
  = k * nsum (map2 Rmult gam (mapi_from f k0 cs)) +
    (if (k0 <=? i)%nat then match nth_error gam (i - k0) with Some y => ex * y | None => 0 end else 0).
Proof.
  revert gam. induction cs as [|c cs IH]; intros [|y gam] k0 H; try discriminate.
  - simpl. rewrite nsum_nil. destruct (k0 <=? i)%nat; [|ring]. destruct (i - k0)%nat; simpl; ring.
  - cbn [mapi_from map2]. rewrite !nsum_cons, IH by (simpl in H; lia).
    destruct (Nat.eqb_spec i k0) as [->|Hne].
    + replace (S k0 <=? k0)%nat with false by (symmetry; apply Nat.leb_gt; lia).
      rewrite Nat.leb_refl, Nat.sub_diag. simpl. ring.
    + destruct (Nat.leb_spec (S k0) i), (Nat.leb_spec k0 i); try lia.
      * replace (i - k0)%nat with (S (i - S k0)) by lia. simpl. destruct (nth_error gam (i - S k0)); ring.
      * ring.
Qed.

(** velocity induced by all vortices *)
Definition wash (u : vec3 R) (cs : list (cell R)) (gam : list R) (i : nat) (ci : cell R) : vec3 R :=
  vsum (map2 vscale gam (mapi (fun j cj => induced u (Nat.eqb i j) (c_sec ci) (c_sec cj)) cs)).
Lemma total_velocity_wash u cs gam i ci : total_velocity u cs gam i ci = vadd (c_v ci) (wash u cs gam i ci).
Proof. reflexivity. Qed.

Lemma map2_scale_dot n (gam : list R) (ws : list (vec3 R)) :
  map (vdot n) (map2 vscale gam ws) = map2 Rmult gam (map (vdot n) ws).
Proof. revert ws. induction gam; intros [|w ws]; cbn [map map2]; auto. rewrite IHgam, vdot_scale_r. reflexivity. Qed.

Lemma row_equation u cs gam i ci y : List.length gam = List.length cs ->
  nth_error gam i = Some y ->
  row_times (mapi (fun j cj => a_entry u (Nat.eqb i j) ci cj) cs) gam
  = 2 * vnorm (vcross (c_v ci) (vsub (s_r2 (c_sec ci)) (s_r1 (c_sec ci)))) * y
    - vnorm (c_v ci) * s_dS (c_sec ci) * tm (s_cla (c_sec ci)) * vdot (s_un (c_sec ci)) (wash u cs gam i ci).
Proof.
  intros Hl Hy. unfold row_times, mapi.
  set (k := - vnorm (c_v ci) * s_dS (c_sec ci) * tm (s_cla (c_sec ci))).
  set (ex := 2 * vnorm (vcross (c_v ci) (vsub (s_r2 (c_sec ci)) (s_r1 (c_sec ci))))).
  set (f := fun (j : nat) (cj : cell R) => vdot (s_un (c_sec ci)) (induced u (Nat.eqb i j) (c_sec ci) (c_sec cj))).
  rewrite (mapi_from_ext _ (fun j c => if Nat.eqb i j then k * f j c + ex else k * f j c)).
  - rewrite row_diag by auto. simpl Nat.leb. rewrite Nat.sub_0_r, Hy.
    unfold wash. rewrite vdot_vsum, map2_scale_dot, map_mapi. fold f. unfold mapi, k. ring.
  - intros j c. unfold a_entry, f. rnum. destruct (Nat.eqb i j); reflexivity.
Qed.

Lemma a_matrix_square u cs : square (a_matrix (T := R) u cs) /\ List.length (a_matrix u cs) = List.length cs.
Proof.
  assert (E : List.length (a_matrix u cs) = List.length cs) by (unfold a_matrix; now rewrite mapi_length).
  split; auto. unfold square. rewrite E. apply Forall_forall. intros row Hr.
  apply In_nth_error in Hr. destruct Hr as [i Hi]. unfold a_matrix in Hi. rewrite mapi_nth in Hi.
  destruct (nth_error cs i); inversion Hi. apply mapi_length.
Qed.

Lemma solves_rows u cs gam : solves (a_matrix u cs) (map b_entry cs) gam ->
  List.length gam = List.length cs /\
  forall i ci, nth_error cs i = Some ci ->
    row_times (mapi (fun j cj => a_entry u (Nat.eqb i j) ci cj) cs) gam = b_entry ci.
Proof.
  destruct (a_matrix_square u cs) as [_ E].
  intros [Hl H]. rewrite E in Hl. split; auto. intros i ci Hi.
  apply (f_equal (fun l => nth_error l i)) in H. unfold a_matrix in H.
  rewrite map_mapi, mapi_nth, nth_error_map, Hi in H. cbn [option_map] in H. injection H as H. exact H.
Qed.
Lemma rows_solve u cs gam : List.length gam = List.length cs ->
  (forall i ci, nth_error cs i = Some ci ->
    row_times (mapi (fun j cj => a_entry u (Nat.eqb i j) ci cj) cs) gam = b_entry ci) ->
  solves (a_matrix u cs) (map b_entry cs) gam.
Proof.
  destruct (a_matrix_square u cs) as [_ E].
  intros Hl H. split; [congruence|]. apply nth_error_ext. intros i. unfold a_matrix.
  rewrite map_mapi, mapi_nth, nth_error_map. destruct (nth_error cs i) as [ci|] eqn:Ei; simpl; auto.
  now rewrite H.
Qed.

(** The linear solver's answer on the system of a set of cells. *)
Lemma exact_answer ls u cs gam : exact_solver ls -> ls (a_matrix u cs) (map b_entry cs) = Some gam ->
  solves (a_matrix u cs) (map b_entry cs) gam /\
  forall y, solves (a_matrix u cs) (map b_entry cs) y -> y = gam.
Proof.
  intros He H. destruct (a_matrix_square u cs) as [Hs El].
  specialize (He _ (map b_entry cs) Hs). rewrite H in He. apply He. rewrite map_length. auto.
Qed.

Lemma lift_interp s alpha d :
  tl (s_cla s) * (alpha + (d - tl (s_al0 s)))
  + s_sp s * (tr (s_cla s) * (alpha + (d - tr (s_al0 s))) - tl (s_cla s) * (alpha + (d - tl (s_al0 s))))
  = lift_coefficient s alpha d.
Proof. unfold lift_coefficient, across. ring. Qed.
Lemma b_entry_spec c : b_entry (T := R) c =
  vnorm (c_v c) ^ 2 * s_dS (c_sec c) *
  lift_coefficient (c_sec c) (atan (vdot (c_v c) (s_un (c_sec c)) / vdot (c_v c) (s_ua (c_sec c)))) (eff_flap c).
Proof. unfold b_entry. rnum. rewrite lift_interp. simpl. ring. Qed.

Lemma section_cl_spec s alpha : section_cl (T := R) s alpha = lift_coefficient s alpha 0.
Proof. unfold section_cl, lift_coefficient, across. rnum. ring. Qed.
Lemma Rdec_2_3 : Rdec 2 3 = 2 / 1000.
Proof. unfold Rdec. f_equal. Qed.
Lemma section_cd_spec s cl x : section_cd (T := R) s cl (degrees x) = drag_coefficient s cl x.
Proof.
  unfold section_cd, drag_coefficient, across. rnum. rewrite Rdec_2_3.
  assert (E : Rabs (degrees x) * 180 / PI = Rabs x).
  { unfold degrees. pose proof PI_RGT_0. unfold Rdiv. rewrite !Rabs_mult.
    rewrite (Rabs_pos_eq PI) by lra. rewrite (Rabs_pos_eq (/ 180)) by lra. field. lra. }
  replace (2 / 1000 * Rabs (degrees x) * 180 / PI) with (2 / 1000 * (Rabs (degrees x) * 180 / PI)) by (unfold Rdiv; ring).
  rewrite E. ring.
Qed.
Lemma section_cm_spec s alpha x : section_cm (T := R) s alpha (degrees x) = moment_coefficient s alpha x.
Proof. unfold section_cm, moment_coefficient, across. rnum. ring. Qed.

(** C31 *)
Lemma deflection_eff_spec x : deflection_eff (T := R) (degrees x) = efficiency x.
Proof.
  unfold deflection_eff, efficiency, ngtb. rnum.
  assert (E : Rabs (degrees x) * 180 / PI = Rabs x).
  { unfold degrees. pose proof PI_RGT_0. unfold Rdiv. rewrite !Rabs_mult.
    rewrite (Rabs_pos_eq PI) by lra. rewrite (Rabs_pos_eq (/ 180)) by lra. field. lra. }
  rewrite E. unfold Rltb. destruct (Rlt_dec 11 (Rabs x)); auto.
  unfold Rdec. simpl. lra.
Qed.
Lemma section_delta_spec c s : section_delta (T := R) c s = degrees (commanded c s).
Proof. unfold section_delta, commanded. rewrite !dgetd_entry. reflexivity. Qed.
