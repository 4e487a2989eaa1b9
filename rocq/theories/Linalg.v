(** Gaussian elimination over the reals: an [exact_solver] exists, so the theorems about
    wing solves, which assume one, are about something.  It plays no other role: the code
    calls numpy.linalg.solve (llmodel.py 362), which is not modelled. *)
From Coq Require Import Reals Bool Arith Lia Lra List Permutation.
From Verif Require Import Base Num RVec Geometry Grid LLModel Spec_Grid Spec_LL.
Import ListNotations.
Local Open Scope R_scope.

Definition equation := (list R * R)%type.
Definition holds (x : list R) (e : equation) : Prop := row_times (fst e) x = snd e.

Fixpoint take_pivot (rows : list equation) : option (R * list R * R * list equation) :=
  match rows with
  | [] => None
  | ([], b) :: rest => match take_pivot rest with
                       | Some (p, pr, pb, others) => Some (p, pr, pb, ([], b) :: others)
                       | None => None
                       end
  | (h :: t, b) :: rest =>
      if Req_EM_T h 0 then
        match take_pivot rest with
        | Some (p, pr, pb, others) => Some (p, pr, pb, (h :: t, b) :: others)
        | None => None
        end
      else Some (h, t, b, rest)
  end.
Definition eliminate (p : R) (pr : list R) (pb : R) (e : equation) : equation :=
  match e with
  | ([], b) => ([], b)
  | (h :: t, b) => (map2 (fun x y => x - h / p * y) t pr, b - h / p * pb)
  end.
Fixpoint gauss (n : nat) (rows : list equation) : option (list R) :=
  match n with
  | O => Some []
  | S m =>
      match take_pivot rows with
      | None => None
      | Some (p, pr, pb, others) =>
          match gauss m (map (eliminate p pr pb) others) with
          | None => None
          | Some x => Some ((pb - row_times pr x) / p :: x)
          end
      end
  end.
Definition gauss_solver (A : list (list R)) (b : list R) : option (list R) :=
  gauss (List.length A) (combine A b).

Definition sat (n : nat) (rows : list equation) (x : list R) : Prop :=
  List.length x = n /\ Forall (holds x) rows.
Definition unique (P : list R -> Prop) (x : list R) : Prop := P x /\ forall y, P y -> y = x.

Lemma take_pivot_some rows : forall p pr pb others, take_pivot rows = Some (p, pr, pb, others) ->
  p <> 0 /\ Permutation rows ((p :: pr, pb) :: others).
Proof.
  induction rows as [|[[|h t] b] rest IH]; intros p pr pb others H; [discriminate| |].
  - simpl in H. destruct (take_pivot rest) as [[[[p' pr'] pb'] o']|] eqn:E; [|discriminate]. inversion H; subst.
    destruct (IH _ _ _ _ eq_refl) as [H1 H2]. split; auto. rewrite H2. apply perm_swap.
  - simpl in H. destruct (Req_EM_T h 0).
    + destruct (take_pivot rest) as [[[[p' pr'] pb'] o']|] eqn:E; [|discriminate]. inversion H; subst.
      destruct (IH _ _ _ _ eq_refl) as [H1 H2]. split; auto. rewrite H2. apply perm_swap.
    + inversion H; subst. auto.
Qed.
Lemma take_pivot_none rows : take_pivot rows = None ->
  Forall (fun e : equation => match fst e with [] => True | h :: _ => h = 0 end) rows.
Proof.
  induction rows as [|[[|h t] b] rest IH]; intros H; constructor; simpl in *; auto.
  - apply IH. destruct (take_pivot rest) as [[[[? ?] ?] ?]|]; [discriminate|auto].
  - destruct (Req_EM_T h 0); [auto|discriminate].
  - apply IH. destruct (Req_EM_T h 0); [|discriminate]. destruct (take_pivot rest) as [[[[? ?] ?] ?]|]; [discriminate|auto].
Qed.

Lemma row_times_cons h t x0 x : row_times (h :: t) (x0 :: x) = h * x0 + row_times t x.
Proof. reflexivity. Qed.
Lemma row_times_comb c : forall t pr x, List.length t = List.length x -> List.length pr = List.length x ->
  row_times (map2 (fun x y => x - c * y) t pr) x = row_times t x - c * row_times pr x.
Proof.
  induction t as [|a t IH]; intros [|b pr] [|y x] H1 H2; try discriminate.
  - unfold row_times. simpl. rewrite nsum_nil. ring.
  - cbn [map2]. rewrite !row_times_cons, IH by (simpl in *; lia). ring.
Qed.
Lemma map2_length {A B C} (f : A -> B -> C) : forall a b, List.length a = List.length b ->
  List.length (map2 f a b) = List.length b.
Proof. induction a; intros [|y b] H; simpl in *; auto; try lia. Qed.

Definition shaped (n : nat) (rows : list equation) : Prop := Forall (fun e : equation => List.length (fst e) = n) rows.

Lemma sat_perm n rows rows' x : Permutation rows rows' -> sat n rows x <-> sat n rows' x.
Proof.
  intros HP. unfold sat. rewrite !Forall_forall. split; intros [H1 H2]; (split; [exact H1|]); intros e He; apply H2.
  - eapply Permutation_in; [symmetry; exact HP|exact He].
  - eapply Permutation_in; [exact HP|exact He].
Qed.
Lemma eliminate_sat n p pr pb others x0 x : p <> 0 -> List.length pr = n -> shaped (S n) others ->
  sat (S n) ((p :: pr, pb) :: others) (x0 :: x) <->
  sat n (map (eliminate p pr pb) others) x /\ x0 = (pb - row_times pr x) / p.
Proof.
  intros Hp Hl Hsh. unfold sat, shaped in *. simpl List.length. split.
  - intros [L H]. inversion H as [|? ? H1 H2]; subst. unfold holds in H1. cbn [fst snd] in H1. rewrite row_times_cons in H1.
    assert (E : x0 = (pb - row_times pr x) / p) by (rewrite <- H1; field; auto).
    split; [|exact E]. split; [lia|]. apply Forall_forall. intros e He. apply in_map_iff in He.
    destruct He as ([[|h t] b] & <- & He); rewrite Forall_forall in Hsh, H2;
      pose proof (Hsh _ He) as Le; pose proof (H2 _ He) as Ee; [discriminate|].
    unfold holds in *. cbn [eliminate fst snd] in *. rewrite row_times_comb by (simpl in Le; lia).
    rewrite row_times_cons in Ee. rewrite <- Ee, <- H1. field. auto.
  - intros [[L H] ->]. split; [lia|]. assert (E1 : forall e, In e ((p :: pr, pb) :: others) -> holds ((pb - row_times pr x) / p :: x) e).
    { intros e [<-|He].
      - unfold holds. cbn [fst snd]. rewrite row_times_cons. field. auto.
      - rewrite Forall_forall in Hsh, H. pose proof (Hsh _ He) as Le.
        pose proof (H _ (in_map (eliminate p pr pb) _ _ He)) as Ee.
        destruct e as [[|h t] b]; [discriminate|]. unfold holds in *. cbn [eliminate fst snd] in *.
        rewrite row_times_comb in Ee by (simpl in Le; lia). rewrite row_times_cons.
        transitivity (row_times t x - h / p * row_times pr x + h / p * pb); [field; auto|]. rewrite Ee. ring. }
    apply Forall_forall. exact E1.
Qed.

Lemma gauss_correct : forall n rows, List.length rows = n -> shaped n rows ->
  match gauss n rows with
  | Some x => unique (sat n rows) x
  | None => ~ exists x, unique (sat n rows) x
  end.
Proof.
  induction n as [|n IH]; intros rows Hl Hsh.
  - destruct rows; [|discriminate]. simpl. split; [split; auto|]. intros [|y l] [H _]; auto; discriminate.
  - cbn [gauss]. destruct (take_pivot rows) as [[[[p pr] pb] others]|] eqn:E.
    + destruct (take_pivot_some _ _ _ _ _ E) as [Hp HP].
      assert (Hsh' : shaped (S n) ((p :: pr, pb) :: others)).
      { unfold shaped in *. rewrite Forall_forall in *. intros e He. apply Hsh. eapply Permutation_in; [symmetry; exact HP|exact He]. }
      inversion Hsh' as [|? ? L1 Hsh2]; subst. simpl in L1. injection L1 as L1.
      pose proof (Permutation_length HP) as HL. simpl in HL.
      assert (Hsh3 : shaped n (map (eliminate p pr pb) others)).
      { unfold shaped in *. apply Forall_forall. intros e He. apply in_map_iff in He. destruct He as ([[|h t] b] & <- & He);
        rewrite Forall_forall in Hsh2; pose proof (Hsh2 _ He) as Le; simpl in *; [discriminate|].
        rewrite map2_length; lia. }
      specialize (IH (map (eliminate p pr pb) others)). rewrite map_length in IH. specialize (IH ltac:(lia) Hsh3).
      pose proof (eliminate_sat n p pr pb others) as ES.
      destruct (gauss n (map (eliminate p pr pb) others)) as [x|].
      * destruct IH as [H1 H2]. split.
        { rewrite (sat_perm _ _ _ _ HP). apply ES; auto. }
        { intros [|y0 y] Hy; [destruct Hy; discriminate|]. rewrite (sat_perm _ _ _ _ HP) in Hy. apply ES in Hy; auto.
          destruct Hy as [Hy ->]. apply H2 in Hy. subst. reflexivity. }
      * intros (x & Hx & Hu). destruct x as [|x0 x]; [destruct Hx; discriminate|]. apply IH. exists x.
        rewrite (sat_perm _ _ _ _ HP) in Hx. apply ES in Hx; auto. destruct Hx as [Hx E0]. split; auto.
        intros y Hy. assert (K : sat (S n) rows ((pb - row_times pr y) / p :: y)).
        { rewrite (sat_perm _ _ _ _ HP). apply ES; auto. }
        apply Hu in K. congruence.
    + pose proof (take_pivot_none _ E) as Hz. intros (x & [Lx Hx] & Hu). destruct x as [|x0 x]; [discriminate|].
      assert (K : sat (S n) rows (x0 + 1 :: x)).
      { split; auto. unfold shaped in Hsh. rewrite Forall_forall in *. intros e He. specialize (Hz e He). specialize (Hsh e He). specialize (Hx e He).
        destruct e as [[|h t] b]; [discriminate|]. unfold holds in *. cbn [fst snd] in *. subst h.
        rewrite row_times_cons in *. lra. }
      apply Hu in K. injection K as K. lra.
Qed.

Lemma sat_solves A b x : List.length b = List.length A -> sat (List.length A) (combine A b) x <-> solves A b x.
Proof.
  intros Hl. unfold sat, solves. split; intros [H1 H2]; split; auto.
  - clear H1. revert b Hl H2. induction A as [|r A IH]; intros [|y b] Hl H2; try discriminate; auto.
    simpl in *. inversion H2; subst. unfold holds in H1. cbn [fst snd] in H1. rewrite H1. f_equal. apply IH; auto.
  - clear H1. revert b Hl H2. induction A as [|r A IH]; intros [|y b] Hl H2; try discriminate; simpl; auto.
    simpl in *. injection H2 as E1 E2. constructor; [exact E1|]. apply IH; auto.
Qed.

Theorem gauss_exact : exact_solver gauss_solver.
Proof.
  intros A b Hs Hl. unfold gauss_solver.
  pose proof (gauss_correct (List.length A) (combine A b)) as G.
  assert (HL : List.length (combine A b) = List.length A) by (rewrite combine_length, Hl; apply Nat.min_id).
  specialize (G HL).
  assert (Hsh : shaped (List.length A) (combine A b)).
  { unfold shaped. apply Forall_forall. intros [r y] He. apply in_combine_l in He. unfold square in Hs. rewrite Forall_forall in Hs. now apply Hs. }
  specialize (G Hsh). destruct (gauss (List.length A) (combine A b)) as [x|].
  - destruct G as [G1 G2]. split; [now apply sat_solves|]. intros y Hy. apply G2. now apply sat_solves.
  - intros (x & H1 & H2). apply G. exists x. split; [now apply sat_solves|]. intros y Hy. apply H2. now apply sat_solves.
Qed.

(** Existence and uniqueness decide what an exact solver answers. *)
Lemma exact_solver_answers ls A b x : exact_solver ls -> square A -> List.length b = List.length A ->
  solves A b x -> (forall y, solves A b y -> y = x) -> ls A b = Some x.
Proof.
  intros He Hs Hl H1 H2. specialize (He A b Hs Hl). destruct (ls A b) as [z|].
  - destruct He as [_ He]. f_equal. symmetry. now apply He.
  - exfalso. apply He. eauto.
Qed.
