(** An inverse computed by Gaussian elimination: the assumption [exact_inv], [finds_inv2]
    about numpy.linalg.inv (MU.py 468, 686, 700), made by theorems on pitch_trim and
    find_aero_center, can be met.  It plays no other role. *)
From Coq Require Import Reals Bool Arith Lia Lra List.
From Verif Require Import Base Num RVec Geometry Grid LLModel Spec_Grid Spec_LL Linalg MU Spec_MU.
Import ListNotations.
Local Open Scope R_scope.

(** elimination succeeds or fails whatever the right-hand side *)
Definition same_coef (e e' : equation) : Prop := fst e = fst e'.
Lemma take_pivot_coef : forall rows rows', Forall2 same_coef rows rows' ->
  match take_pivot rows, take_pivot rows' with
  | Some (p, pr, _, o), Some (p', pr', _, o') => p = p' /\ pr = pr' /\ Forall2 same_coef o o'
  | None, None => True
  | _, _ => False
  end.
Proof.
  induction 1 as [|[l b] [l' b'] rows rows' H1 H2 IH]; [exact I|]. unfold same_coef in H1. cbn [fst] in H1. subst l'. cbn [take_pivot].
  destruct l as [|h t].
  - destruct (take_pivot rows) as [[[[p pr] pb] o]|], (take_pivot rows') as [[[[p' pr'] pb'] o']|]; try easy.
    destruct IH as (-> & -> & IH). repeat split; auto. constructor; [reflexivity|auto].
  - destruct (Req_EM_T h 0).
    + destruct (take_pivot rows) as [[[[p pr] pb] o]|], (take_pivot rows') as [[[[p' pr'] pb'] o']|]; try easy.
      destruct IH as (-> & -> & IH). repeat split; auto. constructor; [reflexivity|auto].
    + repeat split; auto.
Qed.
Lemma gauss_coef n : forall rows rows', Forall2 same_coef rows rows' -> gauss n rows <> None -> gauss n rows' <> None.
Proof.
  induction n as [|n IH]; intros rows rows' HF; cbn [gauss]; [discriminate|].
  pose proof (take_pivot_coef rows rows' HF) as K.
  destruct (take_pivot rows) as [[[[p pr] pb] o]|], (take_pivot rows') as [[[[p' pr'] pb'] o']|]; try easy.
  destruct K as (<- & <- & K).
  specialize (IH (map (eliminate p pr pb) o) (map (eliminate p pr pb') o')).
  destruct (gauss n (map (eliminate p pr pb) o)); [|easy].
  destruct (gauss n (map (eliminate p pr pb') o')); [discriminate|]. intros _. exfalso. apply IH; [|discriminate|reflexivity].
  clear -K. induction K as [|[l b] [l' b'] o o' H1 H2 IH]; constructor; auto.
  unfold same_coef in *. cbn [fst] in H1. subst l'. destruct l; reflexivity.
Qed.
Lemma solver_coef A b b' : List.length b = List.length A -> List.length b' = List.length A ->
  gauss_solver A b <> None -> gauss_solver A b' <> None.
Proof.
  intros H1 H2. apply gauss_coef. revert b b' H1 H2. induction A as [|r A IH]; intros [|x b] [|x' b'] H1 H2; try discriminate; cbn; constructor.
  - reflexivity.
  - apply IH; cbn in *; lia.
Qed.

Definition apply (A : list (list R)) (x : list R) : list R := map (fun row => row_times row x) A.
Definition delta (i j : nat) : R := if Nat.eqb i j then 1 else 0.
Definition unit_vec (n j : nat) : list R := map (fun i => delta i j) (seq 0 n).

Fixpoint all_some {A} (l : list (option A)) : option (list A) :=
  match l with
  | [] => Some []
  | None :: _ => None
  | Some x :: l => match all_some l with Some r => Some (x :: r) | None => None end
  end.
Definition is_square (A : list (list R)) : bool := forallb (fun row => Nat.eqb (List.length row) (List.length A)) A.
Definition gauss_inv (A : list (list R)) : option (list (list R)) :=
  if is_square A then
    match all_some (map (fun j => gauss_solver A (unit_vec (List.length A) j)) (seq 0 (List.length A))) with
    | Some cols => Some (map (fun i => map (fun v => nth i v 0) cols) (seq 0 (List.length A)))
    | None => None
    end
  else None.

Lemma is_square_spec A : is_square A = true <-> square A.
Proof.
  unfold is_square, square. rewrite forallb_forall, Forall_forall. split; intros H x Hx; specialize (H x Hx); now apply Nat.eqb_eq.
Qed.
Lemma all_some_spec {A} (l : list (option A)) r : all_some l = Some r -> l = map Some r.
Proof.
  revert r. induction l as [|[x|] l IH]; intros r H; cbn in *; try discriminate.
  - now inversion H.
  - destruct (all_some l) as [r'|]; [|discriminate]. inversion H; subst. cbn. f_equal. now apply IH.
Qed.
Lemma all_some_none {A} (l : list (option A)) : all_some l = None -> In None l.
Proof.
  induction l as [|[x|] l IH]; cbn; intros H; [discriminate| |auto]. destruct (all_some l); [discriminate|]. auto.
Qed.

Lemma row_times_nil a : row_times a [] = 0.
Proof. unfold row_times. destruct a; cbn; rewrite nsum_nil; reflexivity. Qed.
Lemma row_times_add a : forall l (f g : nat -> R), row_times a (map (fun i => f i + g i) l) = row_times a (map f l) + row_times a (map g l).
Proof.
  induction a as [|x a IH]; intros [|i l] f g; cbn [map]; try (unfold row_times; cbn; rewrite nsum_nil; ring).
  rewrite !row_times_cons, IH. ring.
Qed.
Lemma row_times_mul a : forall l (f : nat -> R) y, row_times a (map (fun i => f i * y) l) = row_times a (map f l) * y.
Proof.
  induction a as [|x a IH]; intros [|i l] f y; cbn [map]; try (unfold row_times; cbn; rewrite nsum_nil; ring).
  rewrite !row_times_cons, IH. ring.
Qed.
Lemma map_nth_seq (v : list R) n : List.length v = n -> map (fun i => nth i v 0) (seq 0 n) = v.
Proof.
  intros <-. apply (nth_ext _ _ 0 0); [now rewrite map_length, seq_length|]. intros i Hi. rewrite map_length, seq_length in Hi.
  rewrite (nth_indep _ 0 (nth 0 v 0)) by now rewrite map_length, seq_length.
  rewrite (map_nth (fun i => nth i v 0)). now rewrite seq_nth.
Qed.

Lemma comb_apply n a (vs : list (list R)) : List.length a = n -> Forall (fun v => List.length v = n) vs -> forall y,
  row_times a (map (fun i => row_times (map (fun v => nth i v 0) vs) y) (seq 0 n)) = row_times (map (row_times a) vs) y.
Proof.
  intros Ha. induction 1 as [|v vs Hv _ IH]; intros y.
  - assert (Z : forall z, row_times [] z = 0) by (intros z; unfold row_times; cbn [map2]; now rewrite nsum_nil).
    cbn [map]. rewrite Z. rewrite (map_ext (fun _ => 0) (fun i => 0 * 0)) by (intros; ring). rewrite row_times_mul. ring.
  - destruct y as [|y0 y].
    + rewrite row_times_nil. rewrite (map_ext _ (fun i => 0 * 0)) by (intros; rewrite row_times_nil; ring). rewrite row_times_mul. ring.
    + cbn [map]. rewrite row_times_cons.
      rewrite (map_ext _ (fun i => nth i v 0 * y0 + row_times (map (fun v => nth i v 0) vs) y)) by (intros; now rewrite row_times_cons).
      rewrite row_times_add, row_times_mul, map_nth_seq, IH by assumption. ring.
Qed.
Lemma delta_times n i : forall s y, (s <= i < s + n)%nat -> List.length y = n ->
  row_times (map (delta i) (seq s n)) y = nth (i - s) y 0.
Proof.
  induction n as [|n IH]; intros s y Hs Hy; [lia|]. destruct y as [|y0 y]; [discriminate|]. cbn [seq map]. rewrite row_times_cons.
  unfold delta at 1. destruct (Nat.eqb_spec i s) as [->|Hne].
  - rewrite Nat.sub_diag. cbn [nth].
    assert (Z : forall k m, (k > s)%nat -> forall z, row_times (map (delta s) (seq k m)) z = 0).
    { clear. intros k m. revert k. induction m as [|m IH]; intros k Hk z; [unfold row_times; cbn; now rewrite nsum_nil|].
      destruct z as [|z0 z]; [apply row_times_nil|]. cbn [seq map]. rewrite row_times_cons, IH by lia.
      unfold delta. destruct (Nat.eqb_spec s k); [lia|]. ring. }
    rewrite Z by lia. ring.
  - rewrite IH by (cbn in Hy; lia). replace (i - s)%nat with (S (i - S s)) by lia. cbn [nth]. ring.
Qed.

Lemma inv_right A cols : square A ->
  map (fun j => gauss_solver A (unit_vec (List.length A) j)) (seq 0 (List.length A)) = map Some cols ->
  forall y, List.length y = List.length A ->
  apply A (map (fun i => row_times (map (fun v => nth i v 0) cols) y) (seq 0 (List.length A))) = y.
Proof.
  intros Hs Hc y Hy. set (n := List.length A) in *.
  assert (Lc : List.length cols = n).
  { apply (f_equal (@List.length _)) in Hc. now rewrite !map_length, seq_length in Hc. }
  assert (Sol : forall j, (j < n)%nat -> solves A (unit_vec n j) (nth j cols [])).
  { intros j Hj. assert (K : nth_error (map Some cols) j = Some (Some (nth j cols []))).
    { rewrite nth_error_map. rewrite (nth_error_nth' cols []) by lia. reflexivity. }
    rewrite <- Hc in K. rewrite nth_error_map in K. rewrite (nth_error_nth' (seq 0 n) 0%nat) in K by now rewrite seq_length.
    cbn [option_map] in K. rewrite seq_nth in K by assumption. cbn [Nat.add] in K.
    injection K as K. pose proof (gauss_exact A (unit_vec n j) Hs) as G.
    rewrite K in G. apply G. unfold unit_vec. now rewrite map_length, seq_length. }
  assert (Fc : Forall (fun v => List.length v = n) cols).
  { apply Forall_forall. intros v Hv. destruct (In_nth cols v [] Hv) as (j & Hj & <-). apply Sol. lia. }
  unfold apply. apply (nth_ext _ _ 0 0); [rewrite map_length; symmetry; exact Hy|]. intros i Hi. rewrite map_length in Hi. fold n in Hi.
  rewrite (nth_indep _ 0 ((fun row => row_times row (map (fun i => row_times (map (fun v => nth i v 0) cols) y) (seq 0 n))) [])) by now rewrite map_length.
  rewrite (map_nth (fun row => row_times row _)).
  assert (La : List.length (nth i A []) = n).
  { unfold square in Hs. rewrite Forall_forall in Hs. apply Hs. apply nth_In. exact Hi. }
  rewrite (comb_apply n _ cols La Fc).
  assert (M : map (row_times (nth i A [])) cols = map (delta i) (seq 0 n)).
  { apply (nth_ext _ _ 0 0); [rewrite !map_length, seq_length; exact Lc|]. intros j Hj. rewrite map_length in Hj.
    rewrite (nth_indep (map (row_times (nth i A [])) cols) 0 (row_times (nth i A []) [])) by now rewrite map_length.
    rewrite (map_nth (row_times (nth i A []))).
    rewrite (nth_indep (map (delta i) (seq 0 n)) 0 (delta i 0)) by (rewrite map_length, seq_length; lia).
    rewrite (map_nth (delta i)). rewrite seq_nth by lia. cbn [Nat.add].
    destruct (Sol j ltac:(lia)) as [_ E].
    apply (f_equal (fun l => nth i l 0)) in E.
    rewrite (nth_indep _ 0 (row_times [] (nth j cols []))) in E by now rewrite map_length.
    rewrite (map_nth (fun row => row_times row (nth j cols []))) in E. rewrite E. unfold unit_vec.
    rewrite (nth_indep _ 0 (delta 0 j)) by now rewrite map_length, seq_length.
    rewrite (map_nth (fun i => delta i j)). rewrite seq_nth by exact Hi. reflexivity. }
  rewrite M, delta_times by lia. now rewrite Nat.sub_0_r.
Qed.

Theorem gauss_inv_exact : exact_inv gauss_inv.
Proof.
  intros A B H. unfold gauss_inv in H. destruct (is_square A) eqn:Es; [|discriminate]. apply is_square_spec in Es.
  set (n := List.length A) in *.
  destruct (all_some _) as [cols|] eqn:Ec in H; [|discriminate]. apply all_some_spec in Ec. injection H as <-.
  assert (Lc : List.length cols = n).
  { apply (f_equal (@List.length _)) in Ec. now rewrite !map_length, seq_length in Ec. }
  split; [exact Es|]. split.
  { unfold square. rewrite map_length, seq_length. apply Forall_forall. intros r Hr. apply in_map_iff in Hr. destruct Hr as (i & <- & _).
    now rewrite map_length. }
  split; [now rewrite map_length, seq_length|].
  intros x Hx. rewrite map_map. change (map (fun row => row_times row x) A) with (apply A x).
  assert (La : List.length (apply A x) = n) by (unfold apply; now rewrite map_length).
  pose proof (inv_right A cols Es Ec (apply A x) La) as K.
  fold n in K. set (z := map (fun i => row_times (map (fun v => nth i v 0) cols) (apply A x)) (seq 0 n)) in *.
  (* uniqueness *)
  assert (U : gauss_solver A (apply A x) <> None).
  { destruct n as [|m] eqn:En.
    - unfold gauss_solver. fold n. rewrite En. discriminate.
    - apply (solver_coef A (unit_vec (S m) 0)); [unfold unit_vec; now rewrite map_length, seq_length|unfold apply; now rewrite map_length|].
      cbn [seq map] in Ec. destruct cols as [|c cols]; [discriminate|]. cbn [map] in Ec. injection Ec as Ec _. rewrite Ec. discriminate. }
  pose proof (gauss_exact A (apply A x) Es La) as G. destruct (gauss_solver A (apply A x)) as [u|]; [|easy].
  destruct G as [_ G]. rewrite (G z), (G x); [reflexivity| |].
  - split; [exact Hx|reflexivity].
  - split; [unfold z; now rewrite map_length, seq_length|exact K].
Qed.

(** An injective square matrix has an inverse. *)
Lemma gauss_inv_finds A : square A -> (forall x, List.length x = List.length A -> Forall (fun r => row_times r x = 0) A -> Forall (fun v => v = 0) x) ->
  gauss_inv A <> None.
Proof.
  intros Hs Hi. unfold gauss_inv. rewrite (proj2 (is_square_spec A) Hs).
  destruct (all_some _) eqn:Ec; [discriminate|]. intros _. apply all_some_none in Ec. apply in_map_iff in Ec.
  destruct Ec as (j & Ej & _). revert Ej.
  apply (solver_coef A (map (fun _ => 0) A)); [now rewrite map_length|unfold unit_vec; now rewrite map_length, seq_length|].
  pose proof (gauss_exact A (map (fun _ => 0) A) Hs) as G. rewrite map_length in G. specialize (G eq_refl).
  destruct (gauss_solver A (map (fun _ => 0) A)) as [x|]; [discriminate|]. exfalso. apply G.
  exists (map (fun _ => 0) A).
  assert (Z : forall r : list R, row_times r (map (fun _ => 0) A) = 0).
  { clear. induction A as [|a A IH]; intros r; [apply row_times_nil|]. destruct r as [|x r]; [unfold row_times; cbn; now rewrite nsum_nil|].
    cbn [map]. rewrite row_times_cons, IH. ring. }
  split; [split; [now rewrite map_length|apply map_ext; intros; apply Z]|].
  intros y [Ly Hy]. assert (F : Forall (fun v => v = 0) y).
  { apply Hi; [exact Ly|]. clear -Hy. induction A as [|a A IH]; constructor; cbn in Hy; injection Hy as H1 H2; auto. }
  clear -F Ly. revert y F Ly. induction A as [|a A IH]; intros [|v y] F Ly; try discriminate; [reflexivity|].
  inversion F; subst. cbn [map]. f_equal. apply IH; auto.
Qed.
Lemma gauss_inv_2 : finds_inv2 gauss_inv.
Proof.
  intros a b c d Hd. apply gauss_inv_finds.
  - repeat constructor.
  - intros x Lx F. destruct x as [|x [|y [|z l]]]; try discriminate.
    inversion F as [|? ? F1 F2]; subst. inversion F2 as [|? ? F3 _]; subst. rewrite !row_times_cons, row_times_nil in F1, F3.
    assert (x * (a * d - b * c) = 0). { replace (x * (a * d - b * c)) with (d * (a * x + (b * y + 0)) - b * (c * x + (d * y + 0))) by ring. rewrite F1, F3. ring. }
    assert (y * (a * d - b * c) = 0). { replace (y * (a * d - b * c)) with (a * (c * x + (d * y + 0)) - c * (a * x + (b * y + 0))) by ring. rewrite F1, F3. ring. }
    repeat constructor.
    + destruct (Rmult_integral _ _ H); [assumption|contradiction].
    + destruct (Rmult_integral _ _ H0); [assumption|contradiction].
Qed.
