(** C78: airplanes whose wings are entered in any order and under any names are [reordered]. *)
From Coq Require Import Reals String Bool Arith Lia List Permutation.
From Verif Require Import Base Num Geometry Api Grid LLModel PropModel MU Spec_Order LL_order.
Import ListNotations.

(** *** Edits of one wing *)
Definition edit1 (e : wing_edit) (w : wing R) : res (wing R) :=
  match e with
  | EAirfoil name end_ props => rlet af := make_airfoil name props in Ok (wing_map (seg_airfoil end_ af) w)
  | EControl props => rlet c := make_cs props in Ok (wing_map (seg_control_surface c) w)
  end.
Fixpoint edited (es : list wing_edit) (w : wing R) : res (wing R) :=
  match es with
  | [] => Ok w
  | e :: es => rlet w' := edit1 e w in edited es w'
  end.

Lemma set_nth_same {A} (l : list A) i x : nth_error l i = Some x -> set_nth l i x = l.
Proof.
  revert i. induction l as [|y l IH]; intros [|i] H; cbn in *; try discriminate; [now injection H as ->|].
  now rewrite IH.
Qed.
Lemma set_nth_twice {A} (l : list A) i x y : set_nth (set_nth l i x) i y = set_nth l i y.
Proof. revert i. induction l as [|z l IH]; intros [|i]; cbn; auto. now rewrite IH. Qed.
Lemma set_nth_at {A} (l : list A) i x y : nth_error l i = Some y -> nth_error (set_nth l i x) i = Some x.
Proof. revert i. induction l as [|z l IH]; intros [|i] H; cbn in *; try discriminate; auto. Qed.
Lemma set_nth_last {A} (l : list A) x y : set_nth (l ++ [x]) (List.length l) y = (l ++ [y])%list.
Proof. induction l as [|z l IH]; cbn; auto. now rewrite IH. Qed.
Lemma set_wings_twice (pl : airplane R) d st d' st' : set_wings (set_wings pl d st) d' st' = set_wings pl d' st'.
Proof. reflexivity. Qed.
Lemma set_wings_id (pl : airplane R) : set_wings pl (a_wings pl) (a_store pl) = pl.
Proof. now destruct pl. Qed.

Lemma edit_wing_spec id e (pl : airplane R) w pl' :
  nth_error (a_store pl) id = Some w -> edit_wing id e pl = (Ok tt, pl') ->
  exists w', edit1 e w = Ok w' /\ pl' = set_wings pl (a_wings pl) (set_nth (a_store pl) id w').
Proof.
  intros Hn H. destruct e; unfold edit_wing, sbind, wing_airfoil, wing_control_surface in H; rewrite Hn in H; cbn [edit1].
  - destruct (make_airfoil name props) as [af|]; [|discriminate]. injection H as <-. eexists. now split.
  - destruct (make_cs props) as [c|]; [|discriminate]. injection H as <-. eexists. now split.
Qed.
Lemma edits_spec id es : forall (pl : airplane R) w pl',
  nth_error (a_store pl) id = Some w -> siter (edit_wing id) es pl = (Ok tt, pl') ->
  exists w', edited es w = Ok w' /\ pl' = set_wings pl (a_wings pl) (set_nth (a_store pl) id w').
Proof.
  induction es as [|e es IH]; intros pl w pl' Hn H; cbn [siter edited] in *.
  - injection H as <-. exists w. split; [reflexivity|]. now rewrite (set_nth_same _ _ _ Hn), set_wings_id.
  - unfold sbind in H. destruct (edit_wing id e pl) as [[[]|] p1] eqn:E1; [|discriminate].
    destruct (edit_wing_spec _ _ _ _ _ Hn E1) as (w1 & F1 & ->). rewrite F1.
    assert (Hn1 : nth_error (a_store (set_wings pl (a_wings pl) (set_nth (a_store pl) id w1))) id = Some w1)
      by exact (set_nth_at _ _ _ _ Hn).
    destruct (IH _ _ _ Hn1 H) as (w2 & F2 & ->). exists w2. split; [exact F2|].
    cbn [a_wings a_store set_wings]. now rewrite set_wings_twice, set_nth_twice.
Qed.

(** *** The dictionary of wings *)
Definition dict_of (ns : list string) : dict nat := combine ns (seq 0 (List.length ns)).
Lemma dict_snoc ns : forall k x, ~ In x ns ->
  dset (combine ns (seq k (List.length ns))) x (k + List.length ns)%nat = combine (ns ++ [x]) (seq k (List.length (ns ++ [x]))).
Proof.
  induction ns as [|n ns IH]; intros k x Hx; cbn [length seq combine app dset].
  - now rewrite Nat.add_0_r.
  - destruct (String.eqb_spec x n) as [->|_]; [exfalso; apply Hx; now left|]. f_equal.
    replace (k + S (List.length ns))%nat with (S k + List.length ns)%nat by lia. apply IH. intros Q. apply Hx. now right.
Qed.
Lemma dict_of_snoc ns x : ~ In x ns -> dset (dict_of ns) x (List.length ns) = dict_of (ns ++ [x]).
Proof. intros H. exact (dict_snoc ns 0 x H). Qed.
Lemma dget_combine ns : forall k x i, dget (combine ns (seq k (List.length ns))) x = Some i ->
  exists j, i = (k + j)%nat /\ nth_error ns j = Some x.
Proof.
  induction ns as [|n ns IH]; intros k x i H; cbn [length seq combine dget] in H; [discriminate|].
  destruct (String.eqb_spec x n) as [->|_].
  - injection H as <-. exists 0%nat. split; [lia|reflexivity].
  - destruct (IH _ _ _ H) as (j & -> & Hj). exists (S j). split; [lia|exact Hj].
Qed.
Lemma dget_combine_in ns : NoDup ns -> forall k x j, nth_error ns j = Some x ->
  dget (combine ns (seq k (List.length ns))) x = Some (k + j)%nat.
Proof.
  induction 1 as [|n ns Hn Hd IH]; intros k x j H; [destruct j; discriminate|].
  cbn [length seq combine dget]. destruct j as [|j]; cbn [nth_error] in H.
  - injection H as ->. rewrite String.eqb_refl. f_equal. lia.
  - destruct (String.eqb_spec x n) as [->|_]; [exfalso; apply Hn; eapply nth_error_In; eauto|].
    rewrite (IH (S k) x j H). f_equal. lia.
Qed.
Lemma dict_of_get ns x i : NoDup ns -> (dget (dict_of ns) x = Some i <-> nth_error ns i = Some x).
Proof.
  intros D. split; intros H.
  - destruct (dget_combine _ _ _ _ H) as (j & -> & Hj). exact Hj.
  - exact (dget_combine_in ns D 0 x i H).
Qed.
Lemma dict_of_snd ns : map snd (dict_of ns) = seq 0 (List.length ns).
Proof.
  unfold dict_of. generalize 0%nat. induction ns as [|n ns IH]; intros k; cbn; auto. now rewrite IH.
Qed.

(** *** A wing as it ends up, from its entry and the dictionary *)
Definition found (D : dict nat) (p : option string) : res parent :=
  match p with
  | Some pn => if String.eqb pn "" then Ok PAirplane else rlet pid := dlookup D pn in Ok (PWing pid)
  | None => Ok PAirplane
  end.
Definition final (D : dict nat) (e : wing_entry) : res (wing R) :=
  rlet w := make_wing (we_name e) (we_side e) (we_dims e) in
  rlet p := found D (we_parent e) in
  edited (we_edits e) (wing_map (seg_connect p (we_at e)) w).

Lemma found_more ns m p q : NoDup (ns ++ m) -> found (dict_of ns) p = Ok q -> found (dict_of (ns ++ m)) p = Ok q.
Proof.
  intros D. unfold found. destruct p as [pn|]; [|auto]. destruct (String.eqb pn ""); [auto|].
  unfold dlookup. destruct (dget (dict_of ns) pn) as [i|] eqn:E; [|discriminate].
  assert (D1 : NoDup ns) by (clear - D; induction ns as [|n ns IH]; [constructor|]; inversion D; subst; constructor; [rewrite in_app_iff in *; tauto|auto]).
  apply (dict_of_get ns pn i D1) in E.
  assert (E2 : nth_error (ns ++ m) i = Some pn) by (rewrite nth_error_app1; [exact E|]; apply nth_error_Some; congruence).
  apply (dict_of_get (ns ++ m) pn i D) in E2. now rewrite E2.
Qed.
Lemma final_more ns m e w : NoDup (ns ++ m) -> final (dict_of ns) e = Ok w -> final (dict_of (ns ++ m)) e = Ok w.
Proof.
  intros D. unfold final. destruct (make_wing _ _ _) as [w0|]; [|discriminate].
  destruct (found (dict_of ns) (we_parent e)) as [q|] eqn:E; [|discriminate]. now rewrite (found_more ns m _ q D E).
Qed.

Lemma enter_spec e (pl pl' : airplane R) ns :
  a_wings pl = dict_of ns -> List.length (a_store pl) = List.length ns -> NoDup (ns ++ [we_name e]) ->
  enter e pl = (Ok tt, pl') ->
  exists w, final (dict_of (ns ++ [we_name e])) e = Ok w /\
            pl' = set_wings pl (dict_of (ns ++ [we_name e])) (a_store pl ++ [w]).
Proof.
  intros Hw Hl D H. unfold enter, sbind, add_wing in H. unfold final.
  assert (Hx : ~ In (we_name e) ns).
  { clear - D. induction ns as [|n ns IH]; [intros []|]. inversion D; subst. intros [-> | Q]; [|now apply IH].
    apply H1, in_or_app. right. now left. }
  destruct (make_wing (we_name e) (we_side e) (we_dims e)) as [w|]; [|discriminate].
  rewrite Hw, Hl, (dict_of_snoc ns _ Hx) in H. cbn [fst snd] in H. fold (found (dict_of (ns ++ [we_name e])) (we_parent e)) in H.
  destruct (found (dict_of (ns ++ [we_name e])) (we_parent e)) as [p|]; [|discriminate].
  cbn [a_store set_wings] in H. rewrite set_wings_twice in H.
  edestruct edits_spec as (w' & E & ->); [|exact H|].
  - cbn [a_store set_wings]. rewrite <- Hl. rewrite nth_error_app2, Nat.sub_diag by lia. reflexivity.
  - exists w'. split; [exact E|]. cbn [a_store set_wings a_wings]. rewrite set_wings_twice, <- Hl, set_nth_last. reflexivity.
Qed.

Lemma entered es : forall (pl pl' : airplane R) ns,
  a_wings pl = dict_of ns -> List.length (a_store pl) = List.length ns -> NoDup (ns ++ map we_name es) ->
  siter enter es pl = (Ok tt, pl') ->
  exists ws, Forall2 (fun e w => final (dict_of (ns ++ map we_name es)) e = Ok w) es ws /\
             pl' = set_wings pl (dict_of (ns ++ map we_name es)) (a_store pl ++ ws).
Proof.
  induction es as [|e es IH]; intros pl pl' ns Hw Hl D H; cbn [siter map] in *.
  - injection H as <-. exists []. split; [constructor|]. rewrite !app_nil_r, <- Hw. symmetry. apply set_wings_id.
  - unfold sbind in H. destruct (enter e pl) as [[[]|] p1] eqn:E1; [|discriminate].
    change (we_name e :: map we_name es) with ([we_name e] ++ map we_name es)%list in *. rewrite app_assoc in *.
    assert (D1 : NoDup (ns ++ [we_name e])).
    { revert D. generalize (ns ++ [we_name e])%list. intros l. induction l as [|n l IHl]; [constructor|].
      intros D. inversion D; subst. constructor; [rewrite in_app_iff in *; tauto|auto]. }
    destruct (enter_spec e pl p1 ns Hw Hl D1 E1) as (w & F & ->).
    destruct (IH (set_wings pl (dict_of (ns ++ [we_name e])) (a_store pl ++ [w])) _ (ns ++ [we_name e])%list eq_refl ltac:(cbn [a_store set_wings]; rewrite !app_length; cbn [length]; lia) D H)
      as (ws & G & ->).
    exists (w :: ws). split.
    + constructor; [now apply final_more|exact G].
    + cbn [a_store set_wings]. rewrite set_wings_twice, <- (app_assoc (a_store pl)). reflexivity.
Qed.

(** *** The wing under another name *)
Section Renaming.
  Variable g : nat -> nat.
  Definition gp (p : parent) : parent := match p with PWing id => PWing (g id) | p => p end.

  Definition both {A} (P : A -> A -> Prop) (a a' : res A) : Prop :=
    match a, a' with Ok x, Ok x' => P x x' | Err _, Err _ => True | _, _ => False end.
  Lemma bind_both {A B} (P : B -> B -> Prop) (a : res A) (f f' : A -> res B) :
    (forall x, both P (f x) (f' x)) -> both P (rbind a f) (rbind a f').
  Proof. intros H. destruct a; [apply H|exact I]. Qed.
  Lemma make_segment_renamed n n' side dims :
    both (fun s s' => s' = renamed_half g n' s) (make_segment n side dims) (make_segment n' side dims).
  Proof.
    unfold make_segment. cbv zeta. do 10 (apply bind_both; intros ?). unfold both, renamed_half. reflexivity.
  Qed.
  Lemma make_wing_renamed n n' side dims w w' :
    make_wing n side dims = Ok w -> make_wing n' side dims = Ok w' -> same_wing g w w'.
  Proof.
    unfold make_wing. intros H H'. destruct (String.eqb side "both"); [|destruct (String.eqb side "right"); [|destruct (String.eqb side "left"); [|discriminate]]].
    - pose proof (make_segment_renamed ("left_" ++ n) ("left_" ++ n') SLeft dims) as L. unfold both in L.
      pose proof (make_segment_renamed ("right_" ++ n) ("right_" ++ n') SRight dims) as Rr. unfold both in Rr.
      destruct (make_segment ("left_" ++ n) SLeft dims) as [l|]; [|discriminate].
      destruct (make_segment ("left_" ++ n') SLeft dims) as [l'|]; [|discriminate].
      destruct (make_segment ("right_" ++ n) SRight dims) as [r|]; [|discriminate].
      destruct (make_segment ("right_" ++ n') SRight dims) as [r'|]; [|discriminate].
      injection H as <-. injection H' as <-. split; [reflexivity|]. split; cbn [w_left w_right same_half]; [rewrite L|rewrite Rr]; reflexivity.
    - pose proof (make_segment_renamed ("right_" ++ n) ("right_" ++ n') SRight dims) as Rr. unfold both in Rr.
      destruct (make_segment ("right_" ++ n) SRight dims) as [r|]; [|discriminate].
      destruct (make_segment ("right_" ++ n') SRight dims) as [r'|]; [|discriminate].
      injection H as <-. injection H' as <-. split; [reflexivity|]. split; cbn [w_left w_right same_half]; [exact I|rewrite Rr; reflexivity].
    - pose proof (make_segment_renamed ("left_" ++ n) ("left_" ++ n') SLeft dims) as L. unfold both in L.
      destruct (make_segment ("left_" ++ n) SLeft dims) as [l|]; [|discriminate].
      destruct (make_segment ("left_" ++ n') SLeft dims) as [l'|]; [|discriminate].
      injection H as <-. injection H' as <-. split; [reflexivity|]. split; cbn [w_left w_right same_half]; [rewrite L; reflexivity|exact I].
  Qed.
  Lemma wing_map_same F F' w w' :
    (forall n s, exists n', F' (renamed_half g n s) = renamed_half g n' (F s)) ->
    same_wing g w w' -> same_wing g (wing_map F w) (wing_map F' w').
  Proof.
    intros C (A & B & D).
    assert (K : forall a b, same_half g a b -> same_half g (option_map F a) (option_map F' b)).
    { intros [s|] [s'|] H; cbn [same_half option_map] in *; auto. rewrite H. destruct (C (sg_name s') s) as (n' & E).
      rewrite E. reflexivity. }
    unfold wing_map. rewrite A. destruct (w_side w); split; cbn [w_side w_left w_right]; auto.
  Qed.
  Lemma connect_same p at_ w w' : same_wing g w w' ->
    same_wing g (wing_map (seg_connect p at_) w) (wing_map (seg_connect (gp p) at_) w').
  Proof. apply wing_map_same. intros n s. exists n. unfold seg_connect, renamed_half, gp. cbn [sg_parent sg_side sg_connect_at sg_delta sg_is_main sg_yoffset sg_span sg_root_chord sg_tip_chord sg_sweep sg_dihedral sg_mount sg_washout sg_root_af sg_tip_af sg_control sg_num]. destruct p; reflexivity. Qed.
  Lemma edit1_same e w w' : same_wing g w w' ->
    match edit1 e w, edit1 e w' with Ok v, Ok v' => same_wing g v v' | Err _, Err _ => True | _, _ => False end.
  Proof.
    intros H. destruct e; cbn [edit1].
    - destruct (make_airfoil name props); [|exact I]. apply wing_map_same; [|exact H]. intros n s. exists n.
      unfold seg_airfoil. destruct (String.eqb end_ "both"), (String.eqb end_ "root"), (String.eqb end_ "tip"); reflexivity.
    - destruct (make_cs props); [|exact I]. apply wing_map_same; [|exact H]. intros n s. exists n. reflexivity.
  Qed.
  Lemma edited_same es : forall w w' v v', same_wing g w w' -> edited es w = Ok v -> edited es w' = Ok v' -> same_wing g v v'.
  Proof.
    induction es as [|e es IH]; intros w w' v v' H E E'; cbn [edited] in *.
    - injection E as <-. injection E' as <-. exact H.
    - pose proof (edit1_same e w w' H) as K. destruct (edit1 e w) as [u|]; [|discriminate].
      destruct (edit1 e w') as [u'|]; [|discriminate]. exact (IH _ _ _ _ K E E').
  Qed.
  Lemma final_same rho D D' e w w' :
    (forall x y, rho x = rho y -> x = y) -> rho ""%string = ""%string ->
    (forall x i, dget D x = Some i -> dget D' (rho x) = Some (g i)) ->
    final D e = Ok w -> final D' (rename_entry rho e) = Ok w' -> same_wing g w w'.
  Proof.
    intros Hi H0 HD. unfold final. cbn [rename_entry we_name we_parent we_at we_side we_dims we_edits].
    destruct (make_wing (we_name e) (we_side e) (we_dims e)) as [v|] eqn:E; [|discriminate].
    destruct (make_wing (rho (we_name e)) (we_side e) (we_dims e)) as [v'|] eqn:E'; [|discriminate].
    pose proof (make_wing_renamed _ _ _ _ _ _ E E') as S.
    assert (P : forall p p', found D (we_parent e) = Ok p -> found D' (option_map rho (we_parent e)) = Ok p' -> p' = gp p).
    { intros p p'. unfold found. destruct (we_parent e) as [pn|]; cbn [option_map].
      - destruct (String.eqb_spec pn "") as [->|Q].
        + rewrite H0. rewrite String.eqb_refl. intros A B. injection A as <-. injection B as <-. reflexivity.
        + destruct (String.eqb_spec (rho pn) "") as [Q'|_]; [exfalso; apply Q, Hi; congruence|].
          unfold dlookup. destruct (dget D pn) as [i|] eqn:Ei; [|discriminate]. rewrite (HD _ _ Ei).
          intros A B. injection A as <-. injection B as <-. reflexivity.
      - intros A B. injection A as <-. injection B as <-. reflexivity. }
    destruct (found D (we_parent e)) as [p|]; [|discriminate].
    destruct (found D' (option_map rho (we_parent e))) as [p'|]; [|discriminate].
    rewrite (P p p' eq_refl eq_refl). intros A B. exact (edited_same _ _ _ _ _ (connect_same p _ _ _ S) A B).
  Qed.
End Renaming.

(** *** Entering in any order *)
Lemma Forall2_at {A B} (P : A -> B -> Prop) l m : Forall2 P l m -> forall i,
  match nth_error l i, nth_error m i with Some a, Some b => P a b | None, None => True | _, _ => False end.
Proof. induction 1; intros [|i]; cbn; auto. apply IHForall2. Qed.

Lemma Forall2_len {A B} (P : A -> B -> Prop) l m : Forall2 P l m -> List.length l = List.length m.
Proof. induction 1; cbn; auto. Qed.

Theorem any_order (pl p1 p2 : airplane R) es es' rho :
  a_wings pl = [] -> a_store pl = [] -> NoDup (map we_name es) ->
  (forall x y, rho x = rho y -> x = y) -> rho ""%string = ""%string ->
  Permutation (map (rename_entry rho) es) es' ->
  siter enter es pl = (Ok tt, p1) -> siter enter es' pl = (Ok tt, p2) -> reordered p1 p2.
Proof.
  intros Hw Hs D Hi H0 HP E1 E2.
  assert (PN : Permutation (map rho (map we_name es)) (map we_name es')).
  { rewrite <- HP, !map_map. apply Permutation_refl. }
  assert (D' : NoDup (map we_name es')).
  { eapply Permutation_NoDup; [exact PN|]. apply FinFun.Injective_map_NoDup; [exact Hi|exact D]. }
  destruct (entered es pl p1 [] Hw ltac:(now rewrite Hs) D E1) as (ws & F1 & ->).
  destruct (entered es' pl p2 [] Hw ltac:(now rewrite Hs) D' E2) as (ws' & F2 & ->).
  cbn [app] in *. rewrite Hs in *. cbn [app] in *.
  set (ns := map we_name es) in *. set (ns' := map we_name es') in *.
  set (g := fun i => match nth_error ns i with
                     | Some x => match dget (dict_of ns') (rho x) with Some j => j | None => i end
                     | None => i end).
  assert (Ln : List.length ns' = List.length ns) by (rewrite <- (Permutation_length PN); apply map_length).
  assert (G : forall i x, nth_error ns i = Some x -> dget (dict_of ns') (rho x) = Some (g i)).
  { intros i x Hx. unfold g. rewrite Hx. assert (K : In (rho x) ns').
    { eapply Permutation_in; [exact PN|]. apply in_map. eapply nth_error_In; eauto. }
    destruct (In_nth_error _ _ K) as (j & Hj). apply (dict_of_get ns' (rho x) j D') in Hj. now rewrite Hj. }
  assert (Gn : forall i x, nth_error ns i = Some x -> nth_error ns' (g i) = Some (rho x)).
  { intros i x Hx. apply dict_of_get; auto. }
  assert (Lw : List.length ws = List.length ns) by (unfold ns; rewrite map_length; symmetry; eapply Forall2_len; eauto).
  assert (Lw' : List.length ws' = List.length ns') by (unfold ns'; rewrite map_length; symmetry; eapply Forall2_len; eauto).
  assert (RN : renumbers (List.length ns) g).
  { split.
    - intros i Hlt. destruct (nth_error ns i) as [x|] eqn:Ex; [|apply nth_error_None in Ex; lia].
      rewrite <- Ln. apply nth_error_Some. rewrite (Gn _ _ Ex). discriminate.
    - intros i j Hli Hlj Eij. destruct (nth_error ns i) as [x|] eqn:Ex; [|apply nth_error_None in Ex; lia].
      destruct (nth_error ns j) as [y|] eqn:Ey; [|apply nth_error_None in Ey; lia].
      pose proof (Gn _ _ Ex) as A. rewrite Eij, (Gn _ _ Ey) in A.
      assert (y = x) by (apply Hi; congruence). subst y.
      apply (proj1 (NoDup_nth_error ns) D); [exact Hli|congruence]. }
  exists g. split; cbn [a_store a_wings set_wings a_props a_cg a_long_ref a_lat_ref a_position a_units]; try reflexivity; [lia| |].
  - intros id. destruct (Nat.lt_ge_cases id (List.length ns)) as [Hlt|Hge].
    + pose proof (rn_lt _ _ RN id Hlt) as Hlt'.
      destruct (nth_error ns id) as [x|] eqn:Ex; [|apply nth_error_None in Ex; lia].
      pose proof (Gn _ _ Ex) as Ex'.
      assert (Q : exists e, nth_error es id = Some e /\ we_name e = x).
      { unfold ns in Ex. rewrite nth_error_map in Ex. destruct (nth_error es id) as [e|]; [|discriminate]. injection Ex as <-. eauto. }
      destruct Q as (e & Ee & <-).
      assert (Q : exists e', nth_error es' (g id) = Some e' /\ we_name e' = rho (we_name e)).
      { unfold ns' in Ex'. rewrite nth_error_map in Ex'. destruct (nth_error es' (g id)) as [e'|]; [|discriminate]. injection Ex' as <-. eauto. }
      destruct Q as (e' & Ee' & En).
      assert (e' = rename_entry rho e).
      { assert (K : In (rename_entry rho e) es') by (eapply Permutation_in; [exact HP|]; apply in_map; eapply nth_error_In; eauto).
        destruct (In_nth_error _ _ K) as (j & Hj).
        assert (j = g id).
        { apply (proj1 (NoDup_nth_error ns') D').
          - unfold ns'. rewrite map_length. apply nth_error_Some. congruence.
          - unfold ns'. rewrite !nth_error_map, Hj, Ee'. cbn [option_map]. rewrite En. reflexivity. }
        congruence. }
      subst e'. pose proof (Forall2_at _ _ _ F1 id) as A. pose proof (Forall2_at _ _ _ F2 (g id)) as B.
      rewrite Ee in A. rewrite Ee' in B.
      destruct (nth_error ws id) as [w|]; [|contradiction]. destruct (nth_error ws' (g id)) as [w'|]; [|contradiction].
      eapply final_same; [exact Hi|exact H0| |exact A|exact B].
      intros y i Hy. apply G. now apply (dict_of_get ns y i D).
    + assert (Eg : g id = id). { unfold g. destruct (nth_error ns id) eqn:Ex; [|reflexivity]. exfalso. assert (id < List.length ns)%nat by (apply nth_error_Some; congruence). lia. }
      rewrite Eg. rewrite (proj2 (nth_error_None ws id)) by lia. rewrite (proj2 (nth_error_None ws' id)) by lia. exact I.
  - rewrite <- (map_map snd g), !dict_of_snd, Ln. now apply rn_perm.
Qed.

(** *** The other order returns as well *)
Lemma edits_ok id es : forall (pl : airplane R) w w',
  nth_error (a_store pl) id = Some w -> edited es w = Ok w' ->
  exists pl', siter (edit_wing id) es pl = (Ok tt, pl').
Proof.
  induction es as [|e es IH]; intros pl w w' Hn H; cbn [siter edited] in *; [eexists; reflexivity|].
  destruct (edit1 e w) as [u|] eqn:E; [|discriminate].
  assert (K : edit_wing id e pl = (Ok tt, set_wings pl (a_wings pl) (set_nth (a_store pl) id u))).
  { destruct e; unfold edit_wing, sbind, wing_airfoil, wing_control_surface; rewrite Hn; cbn [edit1] in E.
    - destruct (make_airfoil name props); [|discriminate]. injection E as <-. reflexivity.
    - destruct (make_cs props); [|discriminate]. injection E as <-. reflexivity. }
  unfold sbind. rewrite K. eapply IH; [|exact H]. exact (set_nth_at _ _ _ _ Hn).
Qed.
Lemma enter_ok e (pl : airplane R) ns w :
  a_wings pl = dict_of ns -> List.length (a_store pl) = List.length ns -> ~ In (we_name e) ns ->
  final (dict_of (ns ++ [we_name e])) e = Ok w -> exists pl', enter e pl = (Ok tt, pl').
Proof.
  intros Hw Hl Hx H. unfold enter, sbind, add_wing. unfold final in H.
  destruct (make_wing (we_name e) (we_side e) (we_dims e)) as [v|]; [|discriminate].
  rewrite Hw, Hl, (dict_of_snoc ns _ Hx). cbn [fst snd]. fold (found (dict_of (ns ++ [we_name e])) (we_parent e)).
  destruct (found (dict_of (ns ++ [we_name e])) (we_parent e)) as [p|]; [|discriminate].
  eapply edits_ok; [|exact H]. cbn [a_store set_wings]. rewrite <- Hl, nth_error_app2, Nat.sub_diag by lia. reflexivity.
Qed.
Lemma NoDup_prefix {A} (l m : list A) : NoDup (l ++ m) -> NoDup l.
Proof. induction l as [|n l IHl]; [constructor|]. intros D. inversion D; subst. constructor; [rewrite in_app_iff in *; tauto|auto]. Qed.
Lemma NoDup_last {A} (l : list A) x : NoDup (l ++ [x]) -> ~ In x l.
Proof. induction l as [|n l IHl]; intros D; [intros []|]. inversion D; subst. intros [-> | Q]; [|now apply IHl]. apply H1, in_or_app. right. now left. Qed.
Lemma found_here ns p D : NoDup ns -> (forall pn, p = Some pn -> pn <> ""%string -> In pn ns) ->
  D = dict_of ns -> exists q, found D p = Ok q.
Proof.
  intros Dn H ->. unfold found. destruct p as [pn|]; [|eauto]. destruct (String.eqb_spec pn "") as [->|Q]; [eauto|].
  destruct (In_nth_error _ _ (H pn eq_refl Q)) as (i & Hi). apply (dict_of_get ns pn i Dn) in Hi. unfold dlookup. rewrite Hi. eexists. reflexivity.
Qed.
Lemma enter_all_ok all : NoDup (map we_name all) -> parents_first all ->
  Forall (fun e => exists w, final (dict_of (map we_name all)) e = Ok w) all ->
  forall es done (pl : airplane R), all = (done ++ es)%list ->
  a_wings pl = dict_of (map we_name done) -> List.length (a_store pl) = List.length done ->
  exists pl', siter enter es pl = (Ok tt, pl').
Proof.
  intros D PF F. induction es as [|e es IH]; intros done pl Ea Hw Hl; cbn [siter]; [eexists; reflexivity|].
  assert (Eb : all = ((done ++ [e]) ++ es)%list) by (rewrite <- app_assoc; exact Ea).
  assert (Dd : NoDup (map we_name done ++ [we_name e])).
  { rewrite Eb, !map_app in D. exact (NoDup_prefix _ _ D). }
  assert (Hl' : List.length (a_store pl) = List.length (map we_name done)) by now rewrite map_length.
  assert (K : exists w, final (dict_of (map we_name done ++ [we_name e])) e = Ok w).
  { assert (Fe : exists w, final (dict_of (map we_name all)) e = Ok w).
    { apply (proj1 (Forall_forall _ _) F). rewrite Ea. apply in_or_app. right. now left. }
    destruct Fe as (w & Fw).
    destruct (found_here _ (we_parent e) _ Dd ltac:(intros pn Ep Q; specialize (PF done e es pn Ea Ep Q); rewrite map_app in PF; exact PF) eq_refl) as (q & Eq).
    exists w. revert Fw. unfold final. destruct (make_wing _ _ _); [|discriminate]. rewrite Eq.
    assert (D2 : NoDup ((map we_name done ++ [we_name e]) ++ map we_name es)) by (rewrite Eb, !map_app in D; exact D).
    pose proof (found_more _ (map we_name es) _ _ D2 Eq) as Eq2.
    rewrite Eb, !map_app. cbn [map]. rewrite Eq2. auto. }
  destruct K as (w & K). destruct (enter_ok e pl _ w Hw Hl' (NoDup_last _ _ Dd) K) as (p1 & E1).
  unfold sbind. rewrite E1. destruct (enter_spec e pl p1 _ Hw Hl' Dd E1) as (w' & _ & ->).
  apply (IH (done ++ [e])%list); [exact Eb|cbn [a_wings set_wings]; now rewrite map_app|].
  cbn [a_store set_wings]. rewrite !app_length, Hl. reflexivity.
Qed.

Lemma make_segment_any n n' side dims s : make_segment (T := R) n side dims = Ok s -> exists s', make_segment (T := R) n' side dims = Ok s'.
Proof.
  intros H. pose proof (make_segment_renamed (fun i => i) n n' side dims) as K. unfold both in K. rewrite H in K.
  destruct (make_segment n' side dims); [eauto|contradiction].
Qed.
Lemma make_wing_any n n' side dims w : make_wing (T := R) n side dims = Ok w -> exists w', make_wing (T := R) n' side dims = Ok w'.
Proof.
  unfold make_wing. intros H. destruct (String.eqb side "both"); [|destruct (String.eqb side "right"); [|destruct (String.eqb side "left"); [|discriminate]]].
  - destruct (make_segment ("left_" ++ n) SLeft dims) as [l|] eqn:E; [|discriminate].
    destruct (make_segment ("right_" ++ n) SRight dims) as [r|] eqn:E'; [|discriminate].
    destruct (make_segment_any _ ("left_" ++ n') _ _ _ E) as (? & ->). destruct (make_segment_any _ ("right_" ++ n') _ _ _ E') as (? & ->). eexists; reflexivity.
  - destruct (make_segment ("right_" ++ n) SRight dims) as [r|] eqn:E'; [|discriminate].
    destruct (make_segment_any _ ("right_" ++ n') _ _ _ E') as (? & ->). eexists; reflexivity.
  - destruct (make_segment ("left_" ++ n) SLeft dims) as [r|] eqn:E'; [|discriminate].
    destruct (make_segment_any _ ("left_" ++ n') _ _ _ E') as (? & ->). eexists; reflexivity.
Qed.
Lemma edited_any g es : forall w w' v, same_wing g w w' -> edited es w = Ok v -> exists v', edited es w' = Ok v'.
Proof.
  induction es as [|e es IH]; intros w w' v H E; cbn [edited] in *; [eauto|].
  pose proof (edit1_same g e w w' H) as K. destruct (edit1 e w) as [u|]; [|discriminate].
  destruct (edit1 e w') as [u'|]; [|contradiction]. exact (IH _ _ _ K E).
Qed.

Theorem any_order_returns (pl p1 : airplane R) es es' rho :
  a_wings pl = [] -> a_store pl = [] -> NoDup (map we_name es) ->
  (forall x y, rho x = rho y -> x = y) -> rho ""%string = ""%string ->
  Permutation (map (rename_entry rho) es) es' -> parents_first es' ->
  siter enter es pl = (Ok tt, p1) -> exists p2, siter enter es' pl = (Ok tt, p2) /\ reordered p1 p2.
Proof.
  intros Hw Hs D Hi H0 HP PF E1.
  assert (PN : Permutation (map rho (map we_name es)) (map we_name es')).
  { rewrite <- HP, !map_map. apply Permutation_refl. }
  assert (D' : NoDup (map we_name es')).
  { eapply Permutation_NoDup; [exact PN|]. apply FinFun.Injective_map_NoDup; [exact Hi|exact D]. }
  assert (K : exists p2, siter enter es' pl = (Ok tt, p2)).
  { destruct (entered es pl p1 [] Hw ltac:(now rewrite Hs) D E1) as (ws & F1 & _). cbn [app] in F1.
    apply (enter_all_ok es' D' PF) with (done := []); [|reflexivity|exact Hw|now rewrite Hs].
    apply Forall_forall. intros e' He'. apply (Permutation_in e' (Permutation_sym HP)) in He'.
    pose proof (proj1 (in_map_iff _ _ _) He') as (e & <- & He). clear He'.
    assert (Fe : exists w, final (dict_of (map we_name es)) e = Ok w).
    { clear - F1 He. revert He F1. generalize (dict_of (map we_name es)). intros d He F. induction F; [destruct He|].
      destruct He as [-> | He]; eauto. }
    destruct Fe as (w & Fw). revert Fw. unfold final. cbn [rename_entry we_name we_parent we_at we_side we_dims we_edits].
    destruct (make_wing (we_name e) (we_side e) (we_dims e)) as [v|] eqn:Ev; [|discriminate].
    destruct (make_wing_any _ (rho (we_name e)) _ _ _ Ev) as (v' & Ev'). rewrite Ev'.
    destruct (found (dict_of (map we_name es)) (we_parent e)) as [p|] eqn:Ep; [|discriminate].
    assert (Q : exists p', found (dict_of (map we_name es')) (option_map rho (we_parent e)) = Ok p').
    { eapply found_here; [exact D'| |reflexivity]. intros pn Epn Qn. unfold found in Ep.
      destruct (we_parent e) as [x|]; [|discriminate]. injection Epn as <-.
      destruct (String.eqb_spec x "") as [Qx|_]; [exfalso; apply Qn; rewrite Qx; exact H0|].
      unfold dlookup in Ep. destruct (dget (dict_of (map we_name es)) x) as [i|] eqn:Ei; [|discriminate].
      apply (dict_of_get _ x i D) in Ei. eapply Permutation_in; [exact PN|]. apply in_map. eapply nth_error_In; eauto. }
    destruct Q as (p' & Ep'). rewrite Ep'. intros Fw.
    set (g := fun i : nat => match p' with PWing j => j | _ => i end).
    assert (Gp : gp g p = p').
    { unfold found in Ep, Ep'. destruct (we_parent e) as [x|]; cbn [option_map] in Ep'.
      - destruct (String.eqb_spec x "") as [Q0|Qx].
        + rewrite Q0, H0, String.eqb_refl in Ep'. injection Ep as <-. injection Ep' as <-. reflexivity.
        + destruct (String.eqb_spec (rho x) "") as [Q'|_]; [exfalso; apply Qx, Hi; congruence|].
          destruct (dlookup (dict_of (map we_name es)) x); [|discriminate]. destruct (dlookup (dict_of (map we_name es')) (rho x)); [|discriminate].
          injection Ep as <-. injection Ep' as <-. reflexivity.
      - injection Ep as <-. injection Ep' as <-. reflexivity. }
    rewrite <- Gp. eapply edited_any; [|exact Fw]. apply connect_same. exact (make_wing_renamed g _ _ _ _ _ _ Ev Ev'). }
  destruct K as (p2 & E2). exists p2. split; [exact E2|]. exact (any_order pl p1 p2 es es' rho Hw Hs D Hi H0 HP E1 E2).
Qed.
