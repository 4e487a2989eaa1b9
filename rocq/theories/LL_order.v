(** The wing solver with the sections in another order (C78). *)
From Coq Require Import Reals ZArith String Bool Arith Lia Lra List Permutation.
From Verif Require Import Base Num RVec Geometry Grid LLModel PropModel MU Spec_LL LL_R LL_solve Grid_thm LL_props LL_thm LL_sym Spec_Order.
Import ListNotations.
Local Open Scope string_scope.
Local Open Scope R_scope.

(** *** Renumberings *)
Lemma rn_perm n f : renumbers n f -> Permutation (map f (seq 0 n)) (seq 0 n).
Proof.
  intros [H1 H2]. apply NoDup_Permutation_bis.
  - assert (G : forall l, (forall i, In i l -> (i < n)%nat) -> NoDup l -> NoDup (map f l)).
    { induction l as [|x l IH]; intros Hin Hnd; [constructor|]. inversion Hnd; subst. cbn [map]. constructor.
      - intros K. apply in_map_iff in K. destruct K as (y & E & Hy). apply H2 in E; [subst; contradiction| |]; apply Hin; simpl; auto.
      - apply IH; auto. intros i Hi. apply Hin. simpl; auto. }
    apply G; [|apply seq_NoDup]. intros i Hi. apply in_seq in Hi. lia.
  - now rewrite map_length.
  - intros x Hx. apply in_map_iff in Hx. destruct Hx as (i & <- & Hi). apply in_seq in Hi. apply in_seq. specialize (H1 i). lia.
Qed.
Lemma rn_nsum n f (h : nat -> R) : renumbers n f -> nsum (map h (seq 0 n)) = nsum (map (fun i => h (f i)) (seq 0 n)).
Proof. intros H. rewrite <- (map_map f h). apply nsum_perm, Permutation_map. symmetry. now apply rn_perm. Qed.
Lemma rn_vsum n f (h : nat -> vec3 R) : renumbers n f -> vsum (map h (seq 0 n)) = vsum (map (fun i => h (f i)) (seq 0 n)).
Proof. intros H. rewrite <- (map_map f h). apply vsum_perm, Permutation_map. symmetry. now apply rn_perm. Qed.
Lemma rn_eqb n f i j : renumbers n f -> (i < n)%nat -> (j < n)%nat -> Nat.eqb (f i) (f j) = Nat.eqb i j.
Proof.
  intros H Hi Hj. destruct (Nat.eqb_spec i j) as [->|Hne]; [apply Nat.eqb_refl|].
  apply Nat.eqb_neq. intros E. apply Hne. now apply (rn_inj _ _ H).
Qed.
Lemma rn_onto n f : renumbers n f -> forall k, (k < n)%nat -> exists i, (i < n)%nat /\ f i = k.
Proof.
  intros H k Hk. assert (K : In k (map f (seq 0 n))) by (eapply Permutation_in; [symmetry; now apply rn_perm|]; apply in_seq; lia).
  apply in_map_iff in K. destruct K as (i & E & Hi). apply in_seq in Hi. exists i. split; [lia|auto].
Qed.
Definition back (n : nat) (f : nat -> nat) (k : nat) : nat :=
  match find (fun i => Nat.eqb (f i) k) (seq 0 n) with Some i => i | None => 0%nat end.
Lemma back_spec n f : renumbers n f -> forall k, (k < n)%nat -> (back n f k < n)%nat /\ f (back n f k) = k.
Proof.
  intros H k Hk. unfold back. destruct (find _ _) as [i|] eqn:E.
  - apply find_some in E. destruct E as [Hi E]. apply in_seq in Hi. apply Nat.eqb_eq in E. split; [lia|auto].
  - exfalso. destruct (rn_onto _ _ H k Hk) as (i & Hi & Ei). apply find_none with (x := i) in E; [|apply in_seq; lia].
    apply Nat.eqb_neq in E. contradiction.
Qed.
Lemma back_rn n f : renumbers n f -> renumbers n (back n f).
Proof.
  intros H. constructor.
  - intros i Hi. now apply back_spec.
  - intros i j Hi Hj E. destruct (back_spec n f H i Hi) as [_ A], (back_spec n f H j Hj) as [_ B]. congruence.
Qed.
Lemma back_at n f : renumbers n f -> forall i, (i < n)%nat -> back n f (f i) = i.
Proof.
  intros H i Hi. pose proof (rn_lt _ _ H i Hi) as Hf. destruct (back_spec n f H (f i) Hf) as [A B].
  now apply (rn_inj _ _ H).
Qed.

(** *** Values per section *)
Section Moved.
  Variables (n : nat) (f : nat -> nat).
  Hypothesis Hf : renumbers n f.
  Lemma moved_back {A} (x x' : list A) : moved n f x x' -> moved n (back n f) x' x.
  Proof.
    intros (L & L' & E). split; [exact L'|split; [exact L|]]. intros k Hk. destruct (back_spec n f Hf k Hk) as [A1 A2].
    rewrite <- E, A2; auto.
  Qed.
  Lemma moved_index {A} (d : A) x x' : moved n f x x' -> forall i, (i < n)%nat -> index_of d x' (f i) = index_of d x i.
  Proof.
    intros (L & L' & E) i Hi. unfold index_of. specialize (E i Hi).
    destruct (nth_error x i) as [a|] eqn:Ea; [|apply nth_error_None in Ea; lia].
    now rewrite (nth_error_nth _ _ _ Ea), (nth_error_nth _ _ _ E).
  Qed.
  Lemma index_moved {A} (d : A) x x' : List.length x = n -> List.length x' = n ->
    (forall i, (i < n)%nat -> index_of d x' (f i) = index_of d x i) -> moved n f x x'.
  Proof.
    intros L L' E. split; [auto|split; [auto|]]. intros i Hi. pose proof (rn_lt _ _ Hf i Hi).
    rewrite (nth_error_nth' x' d), (nth_error_nth' x d) by lia. f_equal. now apply E.
  Qed.
  Lemma moved_perm {A} (x x' : list A) : moved n f x x' -> Permutation x x'.
  Proof.
    intros M. destruct x as [|d x0] eqn:Ex.
    - destruct M as (L & L' & _). cbn in L. destruct x'; [constructor|cbn in L'; lia].
    - rewrite <- Ex in *. clear Ex x0. pose proof M as (L & L' & _).
      rewrite (list_index d x), (list_index d x'), L, L'.
      rewrite (map_seq_ext n (index_of d x) (fun i => index_of d x' (f i))) by (intros; symmetry; now apply moved_index).
      rewrite <- (map_map f (index_of d x')). apply Permutation_map. now apply rn_perm.
  Qed.
  Lemma moved_map {A B} (h : A -> B) x x' : moved n f x x' -> moved n f (map h x) (map h x').
  Proof.
    intros (L & L' & E). split; [now rewrite map_length|split; [now rewrite map_length|]]. intros i Hi.
    rewrite !nth_error_map, E; auto.
  Qed.
  Lemma moved_map2 {A B C} (h : A -> B -> C) x x' y y' : moved n f x x' -> moved n f y y' -> moved n f (map2 h x y) (map2 h x' y').
  Proof.
    intros (L & L' & E) (M & M' & G). split; [rewrite map2_length; congruence|split; [rewrite map2_length; congruence|]].
    intros i Hi. rewrite !map2_nth_error, E, G; auto.
  Qed.
  Lemma moved_repeat {A} (a : A) : moved n f (repeat a n) (repeat a n).
  Proof.
    split; [apply repeat_length|split; [apply repeat_length|]]. intros i Hi. pose proof (rn_lt _ _ Hf i Hi).
    rewrite !nth_error_repeat; auto.
  Qed.
  Lemma moved_unique {A} (x x' x'' : list A) : moved n f x x' -> moved n f x x'' -> x' = x''.
  Proof.
    intros M M'. apply moved_back in M, M'. destruct M as (L & L' & E), M' as (K & _ & G).
    apply nth_error_ext. intros i. destruct (Nat.lt_ge_cases i n) as [Hi|Hi].
    - rewrite <- E, <- G; auto.
    - assert (E1 : nth_error x' i = None) by (apply nth_error_None; lia).
      assert (E2 : nth_error x'' i = None) by (apply nth_error_None; lia). congruence.
  Qed.
  Lemma moved_exists {A} (x : list A) : List.length x = n -> exists x', moved n f x x'.
  Proof.
    intros L. destruct x as [|d x0] eqn:Ex.
    - exists []. cbn in L. subst n. split; [reflexivity|split; [reflexivity|]]. intros; lia.
    - rewrite <- Ex in *. clear Ex x0. exists (map (fun k => index_of d x (back n f k)) (seq 0 n)).
      apply (index_moved d); auto; [now rewrite map_length, seq_length|]. intros i Hi. pose proof (rn_lt _ _ Hf i Hi).
      unfold index_of at 1. apply nth_error_nth. rewrite nth_error_seq_map. 
      destruct (Nat.ltb_spec (f i) n); [|lia]. cbn [option_map Nat.add]. now rewrite back_at.
  Qed.
End Moved.

(** *** The linear system and the section quantities *)
Lemma row_index d (cs : list (cell R)) u i ci gam n : List.length cs = n -> List.length gam = n ->
  row_times (mapi (fun j cj => a_entry u (Nat.eqb i j) ci cj) cs) gam
  = nsum (map (fun j => a_entry u (Nat.eqb i j) ci (index_of d cs j) * index_of 0 gam j) (seq 0 n)).
Proof.
  intros E Eg. unfold row_times. rewrite (mapi_index d), E. rewrite (list_index 0 gam) at 1. rewrite Eg, map2_map_same. reflexivity.
Qed.
Lemma wash_index d u (K : list (cell R)) (g : list R) i ci n : List.length K = n -> List.length g = n ->
  wash u K g i ci
  = vsum (map (fun j => vscale (index_of 0 g j) (induced u (Nat.eqb i j) (c_sec ci) (c_sec (index_of d K j)))) (seq 0 n)).
Proof.
  intros L1 L2. unfold wash. rewrite (list_index 0 g) at 1. rewrite L2, (mapi_index d), L1. rewrite map2_map_same. reflexivity.
Qed.
Lemma sols_index d v c (K : list (cell R)) (g : list R) n : List.length K = n -> List.length g = n ->
  solve_cells v c K g = map (fun i => solve_cell c (index_of 0 g i) (total_velocity v K g i (index_of d K i)) (index_of d K i)) (seq 0 n).
Proof.
  intros L1 L2. apply nth_error_ext. intros i. unfold solve_cells. rewrite solve_cells_nth by congruence.
  rewrite nth_error_seq_map. destruct (Nat.ltb_spec i n) as [H|H].
  - assert (E0 : nth_error K i = Some (index_of d K i)) by (unfold index_of; apply nth_error_nth'; lia).
    assert (E : nth_error g i = Some (index_of 0 g i)) by (unfold index_of; apply nth_error_nth'; lia).
    rewrite E, E0. reflexivity.
  - assert (E : nth_error K i = None) by (apply nth_error_None; lia). rewrite E. reflexivity.
Qed.
Definition zero_cell : cell R := MkCell zero_section vzero 0 0 0.

Section Cells.
  Variables (n : nat) (f : nat -> nat).
  Hypothesis Hf : renumbers n f.
  Lemma solves_moved u cs cs' x x' : moved n f cs cs' -> moved n f x x' ->
    solves (a_matrix u cs) (map b_entry cs) x -> solves (a_matrix u cs') (map b_entry cs') x'.
  Proof.
    intros M Mx Hs. destruct (solves_rows _ _ _ Hs) as [Lx Hr]. pose proof M as (L & L' & E). pose proof Mx as (Kx & Kx' & _).
    apply rows_solve; [congruence|]. intros k ck Hk.
    assert (Hkn : (k < n)%nat) by (rewrite <- L'; apply nth_error_Some; congruence).
    destruct (rn_onto _ _ Hf k Hkn) as (i & Hi & <-). rewrite E in Hk by auto.
    rewrite (row_index zero_cell _ _ _ _ _ n) by auto. rewrite (rn_nsum n f _ Hf).
    rewrite <- (Hr i ck Hk), (row_index zero_cell _ _ _ _ _ n) by auto.
    f_equal. apply map_seq_ext. intros j Hj.
    now rewrite (rn_eqb n f), (moved_index n f _ _ _ M), (moved_index n f _ _ _ Mx).
  Qed.
  Lemma total_moved u cs cs' x x' i c : moved n f cs cs' -> moved n f x x' -> (i < n)%nat ->
    total_velocity u cs' x' (f i) c = total_velocity u cs x i c.
  Proof.
    intros M Mx Hi. pose proof M as (L & L' & E). pose proof Mx as (Kx & Kx' & _).
    rewrite !total_velocity_wash. f_equal. rewrite !(wash_index zero_cell _ _ _ _ _ n) by auto.
    rewrite (rn_vsum n f _ Hf). f_equal. apply map_seq_ext. intros j Hj.
    now rewrite (rn_eqb n f), (moved_index n f _ _ _ M), (moved_index n f _ _ _ Mx).
  Qed.
  Lemma sols_moved u cg cs cs' x x' : moved n f cs cs' -> moved n f x x' ->
    moved n f (solve_cells u cg cs x) (solve_cells u cg cs' x').
  Proof.
    intros M Mx. pose proof M as (L & L' & E). pose proof Mx as (Kx & Kx' & _).
    rewrite !(sols_index zero_cell _ _ _ _ n) by auto.
    split; [now rewrite map_length, seq_length|split; [now rewrite map_length, seq_length|]].
    intros i Hi. pose proof (rn_lt _ _ Hf i Hi). rewrite !nth_error_seq_map.
    destruct (Nat.ltb_spec (f i) n), (Nat.ltb_spec i n); try lia. cbn [option_map Nat.add]. f_equal.
    rewrite (moved_index n f _ _ _ M), (moved_index n f _ _ _ Mx) by auto. f_equal. now apply total_moved.
  Qed.
  Lemma assemble_moved u (a b : list (cell_sol R)) : moved n f a b -> assemble u b = assemble u a.
  Proof.
    intros M. assert (V : forall h : cell_sol R -> vec3 R, vsum (map h b) = vsum (map h a)).
    { intros h. apply vsum_perm, Permutation_map. symmetry. now apply (moved_perm n f). }
    unfold assemble. now rewrite !V.
  Qed.
End Cells.

Lemma solver_moved ls n f u cs cs' : exact_solver ls -> renumbers n f -> moved n f cs cs' ->
  moved_opt n f (ls (a_matrix u cs) (map b_entry cs)) (ls (a_matrix u cs') (map b_entry cs')).
Proof.
  intros He Hf M. pose proof M as (L & L' & _). pose proof (back_rn n f Hf) as Hb. pose proof (moved_back n f Hf _ _ M) as Mb.
  assert (F : forall x x', moved n f x x' -> solves (a_matrix u cs) (map b_entry cs) x -> solves (a_matrix u cs') (map b_entry cs') x')
    by (intros x x' Mx; apply (solves_moved n f Hf u cs cs' x x' M Mx)).
  assert (B : forall x x', moved n f x x' -> solves (a_matrix u cs') (map b_entry cs') x' -> solves (a_matrix u cs) (map b_entry cs) x).
  { intros x x' Mx. apply (solves_moved n (back n f) Hb u cs' cs x' x Mb). now apply moved_back. }
  assert (Z : forall x, solves (a_matrix u cs) (map b_entry cs) x -> List.length x = n) by (intros x Hx; apply solves_rows in Hx; destruct Hx; congruence).
  assert (Z' : forall x, solves (a_matrix u cs') (map b_entry cs') x -> List.length x = n) by (intros x Hx; apply solves_rows in Hx; destruct Hx; congruence).
  assert (Ex : forall x' : list R, List.length x' = n -> exists x, moved n f x x').
  { intros x' Hx. destruct (moved_exists n _ Hb x' Hx) as [x Mx]. exists x. apply (moved_back n _ Hb) in Mx.
    split; [apply Mx|split; [apply Mx|]]. intros i Hi. destruct Mx as (K & K' & G).
    pose proof (rn_lt _ _ Hf i Hi) as Hi'. 
    pose proof (back_spec n (back n f) Hb i Hi) as [A1 A2].
    assert (E : back n (back n f) i = f i) by (apply (rn_inj _ _ Hb); auto; rewrite A2; symmetry; now apply back_at).
    rewrite <- E. now apply G. }
  destruct (a_matrix_square u cs) as [Q1 Q2]. destruct (a_matrix_square u cs') as [Q1' Q2'].
  pose proof (He _ (map b_entry cs) Q1) as E1. pose proof (He _ (map b_entry cs') Q1') as E2.
  rewrite Q2, map_length in E1. rewrite Q2', map_length in E2. specialize (E1 eq_refl). specialize (E2 eq_refl).
  destruct (ls (a_matrix u cs) (map b_entry cs)) as [x|]; destruct (ls (a_matrix u cs') (map b_entry cs')) as [x'|]; cbn [moved_opt].
  - destruct E1 as [E1 _]. destruct (moved_exists n f Hf x (Z _ E1)) as [y My]. rewrite <- (proj2 E2 y); auto. now apply (F _ _ ltac:(eassumption)).
  - apply E2. destruct E1 as [E1 U1]. destruct (moved_exists n f Hf x (Z _ E1)) as [y My]. exists y. split; [now apply (F _ _ ltac:(eassumption))|].
    intros t Ht. destruct (Ex t (Z' _ Ht)) as [t0 Mt]. assert (t0 = x) by (apply U1; now apply (B _ _ ltac:(eassumption))). subst t0.
    now apply (moved_unique n f Hf x).
  - apply E1. destruct E2 as [E2 U2]. destruct (Ex x' (Z' _ E2)) as [y My]. exists y. split; [now apply (B _ _ ltac:(eassumption))|].
    intros t Ht. destruct (moved_exists n f Hf t (Z _ Ht)) as [t' Mt]. assert (t' = x') by (apply U2; now apply (F _ _ ltac:(eassumption))). subst t'.
    apply (moved_unique n _ Hb x'); now apply moved_back.
  - exact I.
Qed.

(** *** Names do not matter *)
Definition anon_cell (c : cell R) : cell R := MkCell (anonymous (c_sec c)) (c_v c) (c_rho c) (c_delta c) (c_eff c).
Lemma mapi_map {A B C} (h : nat -> B -> C) (k : A -> B) l : mapi h (map k l) = mapi (fun i x => h i (k x)) l.
Proof. apply nth_error_ext. intros i. rewrite !mapi_nth, nth_error_map. destruct (nth_error l i); reflexivity. Qed.

Lemma mapi_ext {A B} (h k : nat -> A -> B) l : (forall i x, h i x = k i x) -> mapi h l = mapi k l.
Proof. intros E. apply nth_error_ext. intros i. rewrite !mapi_nth. destruct (nth_error l i); cbn; [now rewrite E|reflexivity]. Qed.
Lemma a_anon u cs : a_matrix u (map anon_cell cs) = a_matrix u cs.
Proof.
  unfold a_matrix. rewrite mapi_map. apply mapi_ext. intros i x. rewrite mapi_map. apply mapi_ext. intros j y. reflexivity.
Qed.
Lemma b_anon cs : map b_entry (map anon_cell cs) = map b_entry cs.
Proof. rewrite map_map. apply map_ext. reflexivity. Qed.
Lemma sols_anon u cg cs gam : List.length gam = List.length cs -> solve_cells u cg (map anon_cell cs) gam = solve_cells u cg cs gam.
Proof.
  intros L. apply nth_error_ext. intros i. unfold solve_cells. rewrite !solve_cells_nth by (rewrite ?map_length; congruence).
  rewrite nth_error_map. destruct (nth_error cs i) as [c|]; cbn [option_map]; [|reflexivity].
  destruct (nth_error gam i); [|reflexivity].
  assert (E : total_velocity u (map anon_cell cs) gam i (anon_cell c) = total_velocity u cs gam i c).
  { unfold total_velocity. rewrite mapi_map. reflexivity. }
  cbn [Nat.add]. rewrite E. reflexivity.
Qed.

(** *** The calls of the wing model *)
Definition same_grid (n : nat) (f : nat -> nat) (g g' : grid R) : Prop :=
  g_num g = n /\ g_num g' = n /\ moved n f (map anonymous (g_sections g)) (map anonymous (g_sections g')).

Section Calls.
  Variables (n : nat) (f : nat -> nat) (g g' : grid R).
  Hypothesis Hf : renumbers n f.
  Hypothesis Hg : same_grid n f g g'.
  Lemma secs_moved {A} (h : section R -> A) : (forall s, h (anonymous s) = h s) ->
    moved n f (map h (g_sections g)) (map h (g_sections g')).
  Proof.
    intros E. destruct Hg as (_ & _ & M). apply (moved_map n f h) in M. rewrite !map_map in M.
    rewrite (map_ext _ _ E), (map_ext _ _ E) in M. exact M.
  Qed.
  Lemma secs_len : List.length (g_sections g) = n /\ List.length (g_sections g') = n.
  Proof. destruct Hg as (_ & _ & L & L' & _). now rewrite !map_length in *. Qed.
  Lemma cells_moved s s' : same_ll n f s s' -> moved n f (map anon_cell (cells g s)) (map anon_cell (cells g' s')).
  Proof.
    intros S. destruct secs_len as [N N'].
    destruct (sl_v _ _ _ _ S) as (V & V' & Ev), (sl_rho _ _ _ _ S) as (Q & Q' & Eq),
      (sl_delta _ _ _ _ S) as (D & D' & Ed), (sl_eff _ _ _ _ S) as (W & W' & Ew).
    destruct Hg as (_ & _ & M). destruct M as (_ & _ & E).
    unfold cells. split; [rewrite map_length, cells_of_length; congruence|split; [rewrite map_length, cells_of_length; congruence|]].
    intros i Hi. rewrite !nth_error_map, !cells_of_nth by congruence. rewrite Ev, Eq, Ed, Ew by auto.
    specialize (E i Hi). rewrite !nth_error_map in E.
    destruct (nth_error (l_v s) i) as [v|], (nth_error (l_rho s) i) as [r|], (nth_error (l_delta s) i) as [d|], (nth_error (l_eff s) i) as [e|];
      destruct (nth_error (g_sections g') (f i)) as [s1|], (nth_error (g_sections g) i) as [s2|]; cbn [option_map] in E |- *;
      try discriminate; try reflexivity.
    assert (E' : anonymous s1 = anonymous s2) by (pose proof (f_equal (fun o => match o with Some x => x | None => anonymous s1 end) E) as K; exact K).
    unfold anon_cell. cbn [c_sec c_v c_rho c_delta c_eff]. rewrite E'. reflexivity.
  Qed.

  Definition ll_run {A} (Q : A -> A -> Prop) (p p' : st (ll_state R) A) : Prop :=
    forall s s', same_ll n f s s' ->
      match fst (p s), fst (p' s') with
      | Ok a, Ok a' => Q a a'
      | Err e, Err e' => e' = e
      | _, _ => False
      end /\ same_ll n f (snd (p s)) (snd (p' s')).
  Lemma run_bind {A B} (Q : A -> A -> Prop) (Q2 : B -> B -> Prop) p p' k k' : ll_run Q p p' ->
    (forall a a', Q a a' -> ll_run Q2 (k a) (k' a')) -> ll_run Q2 (sbind p k) (sbind p' k').
  Proof.
    intros H K s s' S. specialize (H s s' S). unfold sbind. destruct (p s) as [[a|e] t], (p' s') as [[a'|e'] t']; cbn [fst snd] in *.
    - destruct H as [HQ HS]. exact (K a a' HQ t t' HS).
    - destruct H as [[] _].
    - destruct H as [[] _].
    - exact H.
  Qed.
  Lemma run_smod (h h' : ll_state R -> ll_state R) : (forall s s', same_ll n f s s' -> same_ll n f (h s) (h' s')) ->
    ll_run eq (smod h) (smod h').
  Proof. intros H s s' S. cbn. split; [reflexivity|auto]. Qed.
  Lemma set_flow_same s s' v v' u rho rho' : same_ll n f s s' -> moved n f v v' -> moved n f rho rho' ->
    same_ll n f (set_flow v u rho s) (set_flow v' u rho' s').
  Proof. intros [] ? ?. constructor; cbn; auto. Qed.

  Lemma vmean_moved v v' : moved n f v v' -> vmean v' = vmean v.
  Proof.
    intros M. unfold vmean. pose proof M as (L & L' & _). rewrite L, L'. f_equal. apply vsum_perm. symmetry. now apply (moved_perm n f).
  Qed.
  Lemma broadcast_moved {A} (r r' : list A) : moved n f r r' \/ List.length r <> n /\ r' = r ->
    match broadcast n r, broadcast n r' with
    | Ok a, Ok a' => moved n f a a'
    | Err e, Err e' => e' = e
    | _, _ => False
    end.
  Proof.
    intros [M|[H ->]].
    - pose proof M as (L & L' & E).
      assert (B : forall x : list A, List.length x = n -> broadcast n x = Ok x).
      { intros x Lx. unfold broadcast. destruct x as [|a [|b x]]; try (rewrite Lx, Nat.eqb_refl; reflexivity).
        cbn in Lx. rewrite <- Lx. reflexivity. }
      now rewrite !B.
    - unfold broadcast. destruct r as [|a [|b r]]; try (destruct (Nat.eqb_spec (List.length r) n); [contradiction|]).
      + destruct (Nat.eqb_spec (List.length (@nil A)) n); [contradiction|reflexivity].
      + now apply moved_repeat.
      + destruct (Nat.eqb_spec (List.length (a :: b :: r)) n); [contradiction|reflexivity].
  Qed.

  Definition same_flow_opt (a a' : option (aero_state R)) : Prop :=
    match a, a' with None, None => True | Some a, Some a' => same_flow n f a a' | _, _ => False end.
  Lemma process_aero_moved cg a a' : same_flow_opt a a' -> ll_run eq (process_aero g cg a) (process_aero g' cg a').
  Proof.
    intros Ha. destruct Hg as (N & N' & M). unfold process_aero. rewrite N, N'.
    destruct a as [[d r]|], a' as [[d' r']|]; cbn [same_flow_opt] in Ha; try contradiction.
    - destruct Ha as [Ed Er]. cbn [an als] in Ed, Er. subst d'. cbn [opt_truthy].
      assert (T : aero_truthy (MkAero d r') = aero_truthy (MkAero d r)).
      { unfold aero_truthy. cbn [an als]. destruct r, r'; try contradiction; reflexivity. }
      rewrite T. destruct (aero_truthy (MkAero d r)).
      + cbn [an als]. eapply run_bind with (Q := eq).
        * destruct r as [r|], r' as [r'|]; try contradiction.
          -- apply broadcast_moved in Er. eapply run_bind with (Q := moved n f).
             ++ intros s s' S. unfold slift. destruct (broadcast n r), (broadcast n r'); cbn; auto; contradiction.
             ++ intros x x' Mx. cbn zeta.
                assert (Ev : vmean (map snd x') = vmean (map snd x)) by now apply vmean_moved, moved_map.
                rewrite Ev. destruct (dget d "V_mag"); apply run_smod; intros s s' S; apply set_flow_same; auto; now apply moved_map.
          -- destruct (dget d "V_mag"), (dget d "rho"); try (intros s s' S; cbn; auto; fail).
             apply run_smod; intros s s' S; apply set_flow_same; auto; now apply moved_repeat.
        * intros [] [] _. destruct (has_rates d); [|intros s s' S; cbn; auto].
          apply run_smod. intros s s' S. unfold superimpose_rotation, set_rotation. destruct S. constructor; cbn; auto.
          assert (E : forall (v : list (vec3 R)) (l : list (section R)) w,
            map2 (fun v sec => vsub v (vcross w (vsub (s_r sec) cg))) v l = map2 (fun v r => vsub v (vcross w (vsub r cg))) v (map (@s_r R) l)).
          { clear. induction v as [|x v IH]; intros [|y l] w; cbn [map2 map]; auto. now rewrite IH. }
          rewrite !E. apply moved_map2; auto. now apply secs_moved.
      + apply run_smod. intros s s' S. pose proof S as S0. destruct S0. rewrite sl_uinf. apply set_flow_same; auto. now apply moved_map.
    - cbn [opt_truthy]. apply run_smod. intros s s' S. pose proof S as S0. destruct S0. rewrite sl_uinf. apply set_flow_same; auto. now apply moved_map.
  Qed.
  Lemma process_control_moved c : ll_run eq (process_control g c) (process_control g' c).
  Proof.
    unfold process_control. destruct (opt_truthy dtruthy c) as [d|]; [|intros s s' S; cbn; auto].
    apply run_smod. intros s s' S. destruct S. constructor; cbn; auto.
    - now apply secs_moved.
    - apply moved_map. now apply secs_moved.
  Qed.
  Lemma linear_moved ls cg : exact_solver ls -> ll_run eq (linear_solve ls g cg) (linear_solve ls g' cg).
  Proof.
    intros He s s' S. unfold linear_solve. pose proof (cells_moved s s' S) as M.
    pose proof (solver_moved ls n f (l_uinf s) _ _ He Hf M) as G. rewrite !a_anon, !b_anon in G.
    rewrite (sl_uinf _ _ _ _ S).
    assert (Ln : List.length (cells g s) = n /\ List.length (cells g' s') = n) by (destruct M as (A & B & _); now rewrite !map_length in *).
    destruct (ls (a_matrix (l_uinf s) (cells g s)) (map b_entry (cells g s))) as [x|];
      destruct (ls (a_matrix (l_uinf s) (cells g' s')) (map b_entry (cells g' s'))) as [x'|]; cbn [moved_opt] in G; try contradiction.
    - cbn [fst snd]. split; [reflexivity|].
      pose proof G as (Lx & Lx' & _).
      pose proof (sols_moved n f Hf (l_uinf s) cg _ _ _ _ M G) as K.
      rewrite !sols_anon in K by (destruct Ln; congruence).
      pose proof (assemble_moved n f Hf (l_uinf s) _ _ K) as Ka. destruct S.
      constructor; cbn [l_v l_uinf l_rho l_rates l_delta l_eff l_results l_gamma l_alphas l_forces l_cl l_cd l_cm moved_opt]; auto.
      + now rewrite Ka.
      + now apply moved_map.
      + now apply moved_map.
      + now apply moved_map.
      + now apply moved_map.
      + now apply moved_map.
    - cbn. auto.
  Qed.
  Lemma ll_solve_moved ls cg ty a a' c : exact_solver ls -> same_flow_opt a a' ->
    ll_run eq (ll_solve ls g cg ty a c) (ll_solve ls g' cg ty a' c).
  Proof.
    intros He Ha. unfold ll_solve. eapply run_bind; [now apply process_aero_moved|]. intros _ _ _.
    eapply run_bind; [now apply process_control_moved|]. intros _ _ _.
    destruct (String.eqb ty "linear"); [now apply linear_moved|]. intros s s' S. cbn. auto.
  Qed.
End Calls.
Lemma init_moved n f : renumbers n f -> same_ll n f (init_ll n) (init_ll n).
Proof. intros H. constructor; cbn; auto; now apply moved_repeat. Qed.
