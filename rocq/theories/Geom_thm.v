(** Proofs about positions and airplane histories (C09-C12). *)
From Coq Require Import Reals ZArith String Bool Arith Lia Lra List.
From Verif Require Import Base Num RVec Geometry Api Grid Spec_Grid Spec_Geom Grid_R Mirror.
Import ListNotations.

(** Segments of built wings: side and connection string agree. *)
Definition seg_conn_ok {T} (s : segment T) : Prop :=
  sg_parent s = PNone \/ exists at_, sg_connect_at s = (side_str (sg_side s) ++ "_" ++ at_)%string.
Definition wing_conn_ok {T} (w : wing T) : Prop :=
  (forall s, w_left w = Some s -> sg_side s = SLeft /\ seg_conn_ok s) /\
  (forall s, w_right w = Some s -> sg_side s = SRight /\ seg_conn_ok s).

Section Gen.
  Context {T : Type} {N : num_ops T}.

  Lemma make_segment_fields n sd d (s : segment T) : make_segment n sd d = Ok s ->
    sg_side s = sd /\ sg_parent s = PNone /\ sg_name s = n /\ sg_connect_at s = "tip"%string.
  Proof.
    unfold make_segment. repeat match goal with
    | |- context[rbind ?x _] => destruct x; cbn [rbind]; [|discriminate] end.
    intros H; inversion H; subst; simpl; auto.
  Qed.

  Lemma make_wing_conn n sd d (w : wing T) : make_wing n sd d = Ok w -> wing_conn_ok w.
  Proof.
    unfold make_wing.
    destruct (String.eqb sd "both"); [|destruct (String.eqb sd "right"); [|destruct (String.eqb sd "left"); [|discriminate]]];
    repeat match goal with
    | |- context[rbind (make_segment ?a ?b ?c) _] =>
        let E := fresh "E" in destruct (make_segment a b c) eqn:E; cbn [rbind]; [|discriminate];
        apply make_segment_fields in E
    end; intros H; inversion H; subst; split; intros s Hs; inversion Hs; subst;
    unfold seg_conn_ok; tauto.
  Qed.

  Lemma wing_map_conn (f : segment T -> segment T) w :
    (forall s, sg_side (f s) = sg_side s) ->
    (forall s, seg_conn_ok s -> seg_conn_ok (f s)) ->
    wing_conn_ok w -> wing_conn_ok (wing_map f w).
  Proof.
    intros Hf Hc [Hl Hr]. unfold wing_map, wing_conn_ok.
    destruct w as [n [] l r]; simpl in *; split; intros s Hs; auto;
    (destruct l as [l|]; simpl in *; try discriminate); (destruct r as [r|]; simpl in *; try discriminate);
    inversion Hs; subst; rewrite Hf;
    try (destruct (Hl _ eq_refl); split; auto; fail);
    try (destruct (Hr _ eq_refl); split; auto; fail).
  Qed.

  Lemma built_conn (pl : airplane T) : built pl -> Forall wing_conn_ok (a_store pl).
  Proof.
    apply store_inv.
    - intros; eapply make_wing_conn; eauto.
    - intros. apply wing_map_conn; auto. intros s _. right. exists at_. reflexivity.
    - intros. apply wing_map_conn; auto.
      + intros s. unfold seg_airfoil. repeat destruct (String.eqb _ _); reflexivity.
      + intros s. unfold seg_airfoil, seg_conn_ok. repeat destruct (String.eqb _ _); auto.
    - intros. apply wing_map_conn; auto.
  Qed.

  Lemma side_at_left at_ : String.eqb ("left" ++ "_" ++ at_)%string "left_tip" = String.eqb at_ "tip".
  Proof. reflexivity. Qed.

  (** *** C10: parents are older *)

  Definition older (i : nat) (w : wing T) : Prop :=
    forall s, (w_left w = Some s \/ w_right w = Some s) ->
      match sg_parent s with PWing id => id < i | _ => True end.
  Definition all_older (pl : airplane T) : Prop :=
    (forall i w, nth_error (a_store pl) i = Some w -> older i w) /\
    (forall n id, dget (a_wings pl) n = Some id -> id < List.length (a_store pl)).

  (** no call names the wing being added as its own parent *)
  Definition no_self (c : api_call T) : Prop :=
    match c with CAddWing n (Some p, _) _ _ => p <> n \/ p = ""%string | _ => True end.

  Lemma make_wing_parents n sd d (w : wing T) s : make_wing n sd d = Ok w ->
    (w_left w = Some s \/ w_right w = Some s) -> sg_parent s = PNone.
  Proof.
    unfold make_wing.
    destruct (String.eqb sd "both"); [|destruct (String.eqb sd "right"); [|destruct (String.eqb sd "left"); [|discriminate]]];
    repeat match goal with
    | |- context[rbind (make_segment ?a ?b ?c) _] =>
        let E := fresh "E" in destruct (make_segment a b c) eqn:E; cbn [rbind]; [|discriminate];
        apply make_segment_fields in E
    end; intros H; inversion H; subst; simpl; intros [Hs|Hs]; inversion Hs; subst; tauto.
  Qed.

  Lemma connect_parents p at_ (w : wing T) n sd d s : make_wing n sd d = Ok w ->
    (w_left (wing_map (seg_connect p at_) w) = Some s \/ w_right (wing_map (seg_connect p at_) w) = Some s) ->
    sg_parent s = p.
  Proof.
    unfold make_wing.
    destruct (String.eqb sd "both"); [|destruct (String.eqb sd "right"); [|destruct (String.eqb sd "left"); [|discriminate]]];
    repeat match goal with
    | |- context[rbind (make_segment ?a ?b ?c) _] =>
        let E := fresh "E" in destruct (make_segment a b c) eqn:E; cbn [rbind]; [|discriminate]
    end; intros H; inversion H; subst; simpl; intros [Hs|Hs]; inversion Hs; subst; reflexivity.
  Qed.

  Lemma wing_map_older f i w :
    (forall s, sg_parent (f s) = sg_parent s) -> older i w -> older i (wing_map f w).
  Proof.
    intros Hf H s Hs. unfold wing_map in Hs. destruct w as [n [] [l|] [r|]]; simpl in *;
    destruct Hs as [Hs|Hs]; inversion Hs; subst; rewrite ?Hf; apply H; simpl; auto.
  Qed.

  Lemma all_older_run c (pl : airplane T) : no_self c -> all_older pl -> all_older (run_call c pl).
  Proof.
    intros Hns [Hold Hids].
    destruct c as [n ct s d|id n e p|id p|x y z|la lo|n d|p n d]; simpl; try (split; assumption).
    - unfold add_wing. destruct (make_wing n s d) as [w|] eqn:Ew; [|split; assumption].
      assert (Hids' : forall k id, dget (dset (a_wings pl) n (List.length (a_store pl))) k = Some id ->
                id < List.length (a_store pl) + 1).
      { intros k id. rewrite dget_dset. destruct (String.eqb n k); intros H.
        - inversion H; lia.
        - apply Hids in H. lia. }
      assert (Hadd : forall w', (forall s, (w_left w' = Some s \/ w_right w' = Some s) ->
                 match sg_parent s with PWing id => id < List.length (a_store pl) | _ => True end) ->
                 all_older (set_wings pl (dset (a_wings pl) n (List.length (a_store pl))) (a_store pl ++ [w']))).
      { intros w' Hw'. split; simpl.
        - intros i w0 Hi. destruct (Nat.lt_ge_cases i (List.length (a_store pl))) as [Hl|Hl].
          + rewrite nth_error_app1 in Hi by auto. eauto.
          + rewrite nth_error_app2 in Hi by auto.
            destruct (i - List.length (a_store pl)) as [|j] eqn:Ei; simpl in Hi; [|destruct j; discriminate].
            inversion Hi; subst. replace i with (List.length (a_store pl)) by lia. exact Hw'.
        - intros k id Hk. rewrite app_length. simpl. eauto. }
      destruct ct as [[pn|] at_]; simpl.
      + destruct (String.eqb_spec pn "") as [->|Hpn].
        * simpl. apply Hadd. intros s0 Hs0. now rewrite (connect_parents _ _ _ _ _ _ _ Ew Hs0).
        * unfold dlookup. destruct (dget _ pn) as [pid|] eqn:Ep; simpl.
          -- apply Hadd. intros s0 Hs0. rewrite (connect_parents _ _ _ _ _ _ _ Ew Hs0).
             rewrite dget_dset in Ep. simpl in Hns.
             destruct (String.eqb_spec n pn) as [->|]; [destruct Hns; contradiction|eauto].
          -- apply Hadd. intros s0 Hs0. now rewrite (make_wing_parents _ _ _ _ _ Ew Hs0).
      + apply Hadd. intros s0 Hs0. now rewrite (connect_parents _ _ _ _ _ _ _ Ew Hs0).
    - unfold wing_airfoil. destruct (nth_error (a_store pl) id) as [w|] eqn:E; [|split; assumption].
      destruct (make_airfoil n p); [|split; assumption]. split; simpl.
      + intros i w0. rewrite set_nth_nth. destruct (Nat.eqb_spec id i) as [->|]; [|eauto].
        destruct (Nat.ltb _ _); [|discriminate]. intros H; inversion H; subst.
        apply wing_map_older; [|eauto].
        intros s0. unfold seg_airfoil. repeat destruct (String.eqb _ _); reflexivity.
      + intros k id'. rewrite set_nth_length. eauto.
    - unfold wing_control_surface. destruct (nth_error (a_store pl) id) as [w|] eqn:E; [|split; assumption].
      destruct (make_cs p); [|split; assumption]. split; simpl.
      + intros i w0. rewrite set_nth_nth. destruct (Nat.eqb_spec id i) as [->|]; [|eauto].
        destruct (Nat.ltb _ _); [|discriminate]. intros H; inversion H; subst.
        apply wing_map_older; [|eauto]. reflexivity.
      + intros k id'. rewrite set_nth_length. eauto.
    - unfold add_prop. destruct (make_prop n d); split; assumption.
    - unfold prop_airfoil. destruct (dget (a_props pl) p); [|split; assumption].
      destruct (make_airfoil n d); split; assumption.
  Qed.

  Lemma all_older_calls cs : forall pl : airplane T, Forall no_self cs -> all_older pl -> all_older (run_calls cs pl).
  Proof.
    induction cs as [|c cs IH]; intros pl Hf H; simpl; auto. inversion Hf; subst.
    apply IH; auto. now apply all_older_run.
  Qed.
  Lemma all_older_new name pos : all_older (new_airplane name pos).
  Proof. split; simpl; [intros [|i] w H; discriminate|discriminate]. Qed.

  (** resolving the position of a segment of wing [i] takes at most [i+1] visits *)
  Lemma position_terminates (pl : airplane T) : all_older pl ->
    forall i w s at_, nth_error (a_store pl) i = Some w -> (w_left w = Some s \/ w_right w = Some s) ->
    forall f, i < f -> seg_position f pl s at_ <> Err OutOfFuel /\
                       seg_position f pl s at_ = seg_position (S i) pl s at_.
  Proof.
    intros [Hold _] i. induction i as [i IH] using lt_wf_ind. intros w s at_ Hw Hs f Hf.
    destruct f as [|f]; [lia|]. rewrite !seg_position_S. cbv zeta.
    pose proof (Hold i w Hw s Hs) as Hp.
    destruct (sg_parent s) as [| |id] eqn:Ep.
    - destruct (String.eqb at_ "left_tip"), (String.eqb at_ "right_tip"); simpl; split; auto; discriminate.
    - destruct (String.eqb at_ "left_tip"), (String.eqb at_ "right_tip"); simpl; split; auto; discriminate.
    - destruct (nth_error (a_store pl) id) as [w'|] eqn:Ew'.
      2:{ destruct (String.eqb at_ "left_tip"), (String.eqb at_ "right_tip"); simpl; split; auto; discriminate. }
      assert (Hq : forall q a, (w_left w' = Some q \/ w_right w' = Some q) ->
                seg_position f pl q a <> Err OutOfFuel /\ seg_position f pl q a = seg_position i pl q a).
      { intros q a Hq. destruct (IH id Hp w' q a Ew' Hq f ltac:(lia)) as [H1 H2]. split; auto.
        rewrite H2. symmetry. apply (IH id Hp w' q a Ew' Hq i). lia. }
      destruct (String.eqb (sg_connect_at s) "left_tip").
      + destruct (w_left w') as [q|].
        * destruct (Hq q (sg_connect_at s)) as [H1 H2]; auto. rewrite H2 in *.
          destruct (seg_position i pl q (sg_connect_at s)) as [p|e];
          destruct (String.eqb at_ "left_tip"), (String.eqb at_ "right_tip"); simpl; split; auto; congruence.
        * destruct (String.eqb at_ "left_tip"), (String.eqb at_ "right_tip"); simpl; split; auto; discriminate.
      + destruct (String.eqb (sg_connect_at s) "right_tip").
        * destruct (w_right w') as [q|].
          -- destruct (Hq q (sg_connect_at s)) as [H1 H2]; auto. rewrite H2 in *.
             destruct (seg_position i pl q (sg_connect_at s)) as [p|e];
             destruct (String.eqb at_ "left_tip"), (String.eqb at_ "right_tip"); simpl; split; auto; congruence.
          -- destruct (String.eqb at_ "left_tip"), (String.eqb at_ "right_tip"); simpl; split; auto; discriminate.
        * destruct (String.eqb at_ "left_tip"), (String.eqb at_ "right_tip"); simpl; split; auto; discriminate.
  Qed.

  (** A wing attached to itself at its tip: no amount of fuel is enough. *)
  Lemma self_attached_diverges n sd dims (pl : airplane T) id pl' :
    n <> ""%string -> add_wing n (Some n, "tip"%string) sd dims pl = (Ok id, pl') ->
    exists w, nth_error (a_store pl') id = Some w /\
    forall s at_, (at_ = "left_tip" \/ at_ = "right_tip")%string ->
                  (w_left w = Some s \/ w_right w = Some s) ->
                  forall f, seg_position f pl' s at_ = Err OutOfFuel.
  Proof.
    intros Hn H. unfold add_wing in H. destruct (make_wing n sd dims) as [w|] eqn:Ew; [|discriminate].
    cbn [fst] in H. destruct (String.eqb_spec n ""); [contradiction|].
    unfold dlookup in H. rewrite dget_dset_same in H. cbn [rbind snd] in H.
    inversion H; subst id pl'; clear H.
    set (id := List.length (a_store pl)). set (w' := wing_map (seg_connect (PWing id) "tip") w).
    exists w'. cbn [a_store set_wings].
    assert (Hid : nth_error (a_store pl ++ [w']) id = Some w').
    { unfold id. rewrite nth_error_app2, Nat.sub_diag by lia. reflexivity. }
    split; [exact Hid|].
    pose proof (make_wing_conn _ _ _ _ Ew) as Hconn.
    assert (Hs' : forall s, (w_left w' = Some s \/ w_right w' = Some s) ->
              sg_parent s = PWing id /\
              (w_left w' = Some s -> sg_connect_at s = "left_tip"%string) /\
              (w_right w' = Some s -> sg_connect_at s = "right_tip"%string) /\
              (sg_connect_at s = "left_tip"%string \/ sg_connect_at s = "right_tip"%string) /\
              (sg_connect_at s = "left_tip"%string -> w_left w' = Some s) /\
              (sg_connect_at s = "right_tip"%string -> w_right w' = Some s)).
    { intros s Hs. split; [eapply connect_parents; eauto|].
      assert (Hl : forall s, w_left w' = Some s -> sg_connect_at s = "left_tip"%string).
      { intros s0 H0. unfold w', wing_map in H0. destruct Hconn as [Hl _].
        unfold make_wing in Ew.
        destruct (String.eqb sd "both"); [|destruct (String.eqb sd "right"); [|destruct (String.eqb sd "left"); [|discriminate]]];
        repeat match type of Ew with
        | context[rbind (make_segment ?a ?b ?c) _] =>
            let E := fresh "E" in destruct (make_segment a b c) eqn:E; cbn [rbind] in Ew; [|discriminate];
            apply make_segment_fields in E
        end; inversion Ew; subst w; simpl in H0; inversion H0; subst; simpl;
        match goal with H : sg_side ?q = _ /\ _ |- context[side_str (sg_side ?q)] => destruct H as [H _]; rewrite H end; reflexivity. }
      assert (Hr : forall s, w_right w' = Some s -> sg_connect_at s = "right_tip"%string).
      { intros s0 H0. unfold w', wing_map in H0. destruct Hconn as [_ Hr].
        unfold make_wing in Ew.
        destruct (String.eqb sd "both"); [|destruct (String.eqb sd "right"); [|destruct (String.eqb sd "left"); [|discriminate]]];
        repeat match type of Ew with
        | context[rbind (make_segment ?a ?b ?c) _] =>
            let E := fresh "E" in destruct (make_segment a b c) eqn:E; cbn [rbind] in Ew; [|discriminate];
            apply make_segment_fields in E
        end; inversion Ew; subst w; simpl in H0; inversion H0; subst; simpl;
        match goal with H : sg_side ?q = _ /\ _ |- context[side_str (sg_side ?q)] => destruct H as [H _]; rewrite H end; reflexivity. }
      split; [auto|]. split; [auto|]. destruct Hs as [Hs|Hs].
      - pose proof (Hl s Hs) as E. split; [auto|]. split; auto. intros E'; rewrite E' in E; discriminate.
      - pose proof (Hr s Hs) as E. split; [auto|]. split; auto. intros E'; rewrite E' in E; discriminate. }
    intros s at_ Hat Hs f. revert s at_ Hat Hs.
    induction f as [|f IH]; intros s at_ Hat Hs; [reflexivity|].
    destruct (Hs' s Hs) as (Hp & _ & _ & Hc & Hcl & Hcr).
    rewrite seg_position_S. cbv zeta. rewrite Hp. cbn [a_store set_wings]. rewrite Hid.
    destruct Hc as [Hc|Hc]; rewrite Hc.
    - rewrite (Hcl Hc). cbn [String.eqb Ascii.eqb Bool.eqb].
      rewrite IH by auto. destruct Hat as [-> | ->]; reflexivity.
    - rewrite (Hcr Hc). cbn [String.eqb Ascii.eqb Bool.eqb].
      rewrite IH by auto. destruct Hat as [-> | ->]; reflexivity.
  Qed.
End Gen.

Section Le.
  Context {T : Type} {N : num_ops T}.

  Definition parents_le (pl : airplane T) : Prop :=
    (forall i w s id, nth_error (a_store pl) i = Some w -> (w_left w = Some s \/ w_right w = Some s) ->
       sg_parent s = PWing id -> id <= i) /\
    (forall n id, dget (a_wings pl) n = Some id -> id < List.length (a_store pl)).

  Lemma wing_map_parents f (w : wing T) s :
    (forall s, sg_parent (f s) = sg_parent s) ->
    (w_left (wing_map f w) = Some s \/ w_right (wing_map f w) = Some s) ->
    exists s0, (w_left w = Some s0 \/ w_right w = Some s0) /\ sg_parent s = sg_parent s0.
  Proof.
    intros Hf Hs. unfold wing_map in Hs. destruct w as [n [] [l|] [r|]]; simpl in *;
    destruct Hs as [Hs|Hs]; inversion Hs; subst;
    first [exists l; split; [left; reflexivity|now auto] | exists r; split; [right; reflexivity|now auto]
          | exists s; split; auto].
  Qed.

  Lemma parents_le_run c (pl : airplane T) : parents_le pl -> parents_le (run_call c pl).
  Proof.
    intros [Hold Hids].
    destruct c as [n ct s d|id n e p|id p|x y z|la lo|n d|p n d]; simpl; try (split; assumption).
    - unfold add_wing. destruct (make_wing n s d) as [w|] eqn:Ew; [|split; assumption].
      assert (Hids' : forall k id, dget (dset (a_wings pl) n (List.length (a_store pl))) k = Some id ->
                id < List.length (a_store pl) + 1).
      { intros k id. rewrite dget_dset. destruct (String.eqb n k); intros H.
        - inversion H; lia.
        - apply Hids in H. lia. }
      assert (Hadd : forall w', (forall s id, (w_left w' = Some s \/ w_right w' = Some s) ->
                 sg_parent s = PWing id -> id <= List.length (a_store pl)) ->
                 parents_le (set_wings pl (dset (a_wings pl) n (List.length (a_store pl))) (a_store pl ++ [w']))).
      { intros w' Hw'. split; simpl.
        - intros i w0 s0 id Hi. destruct (Nat.lt_ge_cases i (List.length (a_store pl))) as [Hl|Hl].
          + rewrite nth_error_app1 in Hi by auto. eauto.
          + rewrite nth_error_app2 in Hi by auto.
            destruct (i - List.length (a_store pl)) as [|j] eqn:Ei; simpl in Hi; [|destruct j; discriminate].
            inversion Hi; subst. replace i with (List.length (a_store pl)) by lia. apply Hw'.
        - intros k id Hk. rewrite app_length. simpl. eauto. }
      destruct ct as [[pn|] at_]; simpl.
      + destruct (String.eqb_spec pn "") as [->|Hpn].
        * simpl. apply Hadd. intros s0 id Hs0. now rewrite (connect_parents _ _ _ _ _ _ _ Ew Hs0).
        * unfold dlookup. destruct (dget _ pn) as [pid|] eqn:Ep; simpl.
          -- apply Hadd. intros s0 id Hs0. rewrite (connect_parents _ _ _ _ _ _ _ Ew Hs0).
             intros H; inversion H; subst. apply Hids' in Ep. lia.
          -- apply Hadd. intros s0 id Hs0. now rewrite (make_wing_parents _ _ _ _ _ Ew Hs0).
      + apply Hadd. intros s0 id Hs0. now rewrite (connect_parents _ _ _ _ _ _ _ Ew Hs0).
    - unfold wing_airfoil. destruct (nth_error (a_store pl) id) as [w|] eqn:E; [|split; assumption].
      destruct (make_airfoil n p); [|split; assumption]. split; simpl.
      + intros i w0 s0 id0. rewrite set_nth_nth. destruct (Nat.eqb_spec id i) as [->|]; [|eauto].
        destruct (Nat.ltb _ _); [|discriminate]. intros H; inversion H; subst. intros Hs.
        destruct (wing_map_parents (seg_airfoil e a) w s0) as [s1 [H1 ->]]; auto; [|eauto].
        intros s2. unfold seg_airfoil. repeat destruct (String.eqb _ _); reflexivity.
      + intros k id'. rewrite set_nth_length. eauto.
    - unfold wing_control_surface. destruct (nth_error (a_store pl) id) as [w|] eqn:E; [|split; assumption].
      destruct (make_cs p); [|split; assumption]. split; simpl.
      + intros i w0 s0 id0. rewrite set_nth_nth. destruct (Nat.eqb_spec id i) as [->|]; [|eauto].
        destruct (Nat.ltb _ _); [|discriminate]. intros H; inversion H; subst. intros Hs.
        destruct (wing_map_parents (seg_control_surface a) w s0) as [s1 [H1 ->]]; auto. eauto.
      + intros k id'. rewrite set_nth_length. eauto.
    - unfold add_prop. destruct (make_prop n d); split; assumption.
    - unfold prop_airfoil. destruct (dget (a_props pl) p); [|split; assumption].
      destruct (make_airfoil n d); split; assumption.
  Qed.

  Lemma built_parents_le (pl : airplane T) : built pl -> parents_le pl.
  Proof.
    apply (built_inv parents_le); auto.
    - intros c p. apply parents_le_run.
    - intros name pos. split; simpl; [intros [|i] w s id H; discriminate|discriminate].
  Qed.

  Lemma built_all_older (pl : airplane T) : built pl -> not_self_attached pl -> all_older pl.
  Proof.
    intros Hb Hn. destruct (built_parents_le pl Hb) as [H1 H2]. split; auto.
    intros i w Hw s Hs. destruct (sg_parent s) as [| |id] eqn:Ep; auto.
    pose proof (H1 _ _ _ _ Hw Hs Ep). pose proof (Hn _ _ _ Hw Hs).
    destruct (Nat.eq_dec id i); [subst; contradiction|lia].
  Qed.

  Lemma calls_not_self_attached cs name pos :
    Forall no_self cs -> not_self_attached (run_calls cs (new_airplane (T := T) name pos)).
  Proof.
    intros H i w s Hw Hs E.
    pose proof (all_older_calls cs _ H (all_older_new name pos)) as [Ho _].
    specialize (Ho i w Hw s Hs). rewrite E in Ho. lia.
  Qed.

  Lemma position_answered (pl : airplane T) : built pl -> not_self_attached pl ->
    forall w s at_, In w (a_store pl) -> (w_left w = Some s \/ w_right w = Some s) ->
    forall f, List.length (a_store pl) <= f ->
      seg_position f pl s at_ <> Err OutOfFuel /\
      seg_position f pl s at_ = seg_position (List.length (a_store pl)) pl s at_.
  Proof.
    intros Hb Hn w s at_ Hin Hs f Hf. apply In_nth_error in Hin. destruct Hin as [i Hi].
    assert (i < List.length (a_store pl)) by (apply nth_error_Some; congruence).
    destruct (position_terminates pl (built_all_older pl Hb Hn) i w s at_ Hi Hs f ltac:(lia)) as [H1 H2].
    split; auto. rewrite H2. symmetry.
    apply (position_terminates pl (built_all_older pl Hb Hn) i w s at_ Hi Hs). lia.
  Qed.

  (** *** C11 *)
  Lemma add_wing_outcomes n ct sd dims (pl : airplane T) :
    let (r, pl') := add_wing n ct sd dims pl in
    (forall id, r = Ok id -> exists w, nth_error (a_store pl') id = Some w /\ dget (a_wings pl') n = Some id) /\
    (forall e, r = Err e ->
       (pl' = pl /\ make_wing n sd dims = Err e) \/
       (e = KeyError /\ exists pn w, fst ct = Some pn /\ pn <> ""%string /\ pn <> n /\
          dget (a_wings pl) pn = None /\ make_wing n sd dims = Ok w /\
          a_store pl' = a_store pl ++ [w] /\
          dget (a_wings pl') n = Some (List.length (a_store pl)) /\
          (forall k, k <> n -> dget (a_wings pl') k = dget (a_wings pl) k) /\
          forall s, w_left w = Some s \/ w_right w = Some s -> sg_parent s = PNone)).
  Proof.
    unfold add_wing. destruct (make_wing n sd dims) as [w|e0] eqn:Ew.
    2:{ split; [discriminate|]. intros e H; inversion H; subst. left; auto. }
    assert (Hok : forall p, exists w', nth_error (a_store pl ++ [wing_map (seg_connect p (snd ct)) w]) (List.length (a_store pl)) = Some w' /\
              dget (dset (a_wings pl) n (List.length (a_store pl))) n = Some (List.length (a_store pl))).
    { intros p. rewrite nth_error_app2, Nat.sub_diag by lia. rewrite dget_dset_same. eexists; split; reflexivity. }
    destruct (fst ct) as [pn|]; [destruct (String.eqb_spec pn "") as [E|E]|]; simpl.
    - split; [|discriminate]. intros id H; inversion H; subst. apply Hok.
    - unfold dlookup. destruct (dget (dset (a_wings pl) n (List.length (a_store pl))) pn) as [pid|] eqn:Ep; simpl.
      + split; [|discriminate]. intros id H; inversion H; subst. apply Hok.
      + split; [discriminate|]. intros e H; inversion H; subst. right. split; auto.
        exists pn, w. rewrite dget_dset in Ep. destruct (String.eqb_spec n pn); [discriminate|].
        repeat split; auto.
        * apply dget_dset_same.
        * intros k Hk. rewrite dget_dset. destruct (String.eqb_spec n k); congruence.
        * intros s. eapply make_wing_parents; eauto.
    - split; [|discriminate]. intros id H; inversion H; subst. apply Hok.
  Qed.
End Le.

Local Open Scope R_scope.

(** *** C09 *)
Lemma local_root s :
  (if match sg_side s with SRight => true | SLeft => false end then seg_local_left s else seg_local_right s) = root_shift s.
Proof.
  unfold root_shift, outward, seg_local_left, seg_local_right. destruct (sg_side s); vunf; rnum; f_equal; ring.
Qed.
Lemma local_tip s :
  (if match sg_side s with SRight => true | SLeft => false end then seg_local_right s else seg_local_left s)
  = vadd (root_shift s) (root_to_tip s).
Proof.
  unfold root_shift, root_to_tip, outward, seg_local_left, seg_local_right, tan.
  destruct (sg_side s); vunf; rnum; f_equal; unfold Rdiv; ring.
Qed.

(** The attachment point, for a segment whose connection was set by connect_to. *)
Definition attach_pos (f : nat) (pl : airplane R) (s : segment R) : res (vec3 R) :=
  match sg_parent s with
  | PNone => Ok vzero
  | PAirplane => Ok (airplane_position pl)
  | PWing id =>
      match nth_error (a_store pl) id with
      | None => Err AttributeError
      | Some w => if String.eqb (sg_connect_at s) (tip_end (sg_side s)) then
                    match segment_on (sg_side s) w with
                    | Some q => seg_position f pl q (tip_end (sg_side s))
                    | None => Err AttributeError
                    end
                  else Err RuntimeError
      end
  end.

Lemma seg_position_attach f pl s at_ : seg_conn_ok s ->
  seg_position (S f) pl s at_ =
  if String.eqb at_ (root_end (sg_side s)) then
    rlet p := attach_pos f pl s in Ok (vadd (root_shift s) p)
  else if String.eqb at_ (tip_end (sg_side s)) then
    rlet p := attach_pos f pl s in Ok (vadd (vadd (root_shift s) (root_to_tip s)) p)
  else Err RuntimeError.
Proof.
  intros Hc. rewrite <- local_tip, <- local_root, seg_position_S. cbv zeta. unfold attach_pos.
  assert (E : match sg_parent s with
          | PNone => Ok vzero
          | PAirplane => Ok (airplane_position pl)
          | PWing id =>
              match nth_error (a_store pl) id with
              | None => Err AttributeError
              | Some w =>
                  if String.eqb (sg_connect_at s) "left_tip" then
                    match w_left w with
                    | Some q => seg_position f pl q (sg_connect_at s)
                    | None => Err AttributeError
                    end
                  else if String.eqb (sg_connect_at s) "right_tip" then
                    match w_right w with
                    | Some q => seg_position f pl q (sg_connect_at s)
                    | None => Err AttributeError
                    end
                  else Err RuntimeError
              end
          end = attach_pos f pl s).
  { unfold attach_pos. destruct (sg_parent s) as [| |id] eqn:Ep; auto.
    destruct (nth_error (a_store pl) id) as [w|]; auto.
    destruct Hc as [Hc|[a Hc]]; [congruence|].
    destruct (sg_side s) eqn:Es; cbn [side_str] in Hc; simpl tip_end; simpl segment_on.
    - destruct (String.eqb_spec (sg_connect_at s) "left_tip") as [->|]; auto.
      destruct (String.eqb_spec (sg_connect_at s) "right_tip") as [E'|]; auto.
      rewrite E' in Hc. discriminate.
    - destruct (String.eqb_spec (sg_connect_at s) "left_tip") as [E'|]; auto.
      + rewrite E' in Hc. discriminate.
      + destruct (String.eqb_spec (sg_connect_at s) "right_tip") as [->|]; auto. }
  rewrite E. unfold attach_pos.
  destruct (sg_side s); simpl root_end; simpl tip_end; auto.
  destruct (String.eqb_spec at_ "left_tip") as [->|]; auto.
Qed.

Lemma segment_on_ok side (w : wing R) q : wing_conn_ok w -> segment_on side w = Some q ->
  sg_side q = side /\ seg_conn_ok q.
Proof. intros [Hl Hr] H. destruct side; simpl in H; [apply Hl|apply Hr]; auto. Qed.

Lemma store_conn (pl : airplane R) id w : built pl -> nth_error (a_store pl) id = Some w -> wing_conn_ok w.
Proof.
  intros Hb H. pose proof (built_conn pl Hb) as Hf. rewrite Forall_forall in Hf.
  apply Hf. eapply nth_error_In; eauto.
Qed.

Lemma root_end_tip side : String.eqb (tip_end side) (root_end side) = false.
Proof. destruct side; reflexivity. Qed.

Lemma position_sits (pl : airplane R) : built pl -> forall f s p,
  seg_conn_ok s -> attach_pos f pl s = Ok p -> sits pl s (vadd p (root_shift s)).
Proof.
  intros Hb f. induction f as [|f IH]; intros s p Hc H; unfold attach_pos in H;
  (destruct (sg_parent s) as [| |id] eqn:Ep;
   [inversion H; subst; replace (vadd vzero (root_shift s)) with (root_shift s) by (destruct (root_shift s); vunf; rnum; f_equal; ring); now constructor
   |inversion H; subst; now constructor
   |destruct (nth_error (a_store pl) id) as [w|] eqn:Ew; [|discriminate];
    destruct (String.eqb_spec (sg_connect_at s) (tip_end (sg_side s))) as [Eat|]; [|discriminate];
    destruct (segment_on (sg_side s) w) as [q|] eqn:Eq; [|discriminate];
    destruct (segment_on_ok _ _ _ (store_conn _ _ _ Hb Ew) Eq) as [Hq1 Hq2]]).
  - discriminate.
  - rewrite seg_position_attach in H by auto. rewrite Hq1, root_end_tip, String.eqb_refl in H.
    destruct (attach_pos f pl q) as [pq|] eqn:Epq; [|discriminate]. simpl in H. inversion H; subst.
    apply IH in Epq; auto.
    replace (vadd (vadd (root_shift q) (root_to_tip q)) pq)
      with (vadd (vadd pq (root_shift q)) (root_to_tip q)) by (vunf; rnum; f_equal; ring).
    econstructor; eauto.
Qed.

Lemma sits_attach (pl : airplane R) : built pl -> forall s p,
  sits pl s p -> exists f0, forall f, (f0 <= f)%nat -> exists q, attach_pos f pl s = Ok q /\ p = vadd q (root_shift s).
Proof.
  intros Hb s p H. induction H as [s E|s E|s id w q p Ep Eat Ew Eq H IH].
  - exists O. intros f _. unfold attach_pos. rewrite E. eexists; split; eauto.
    destruct (root_shift s); vunf; rnum; f_equal; ring.
  - exists O. intros f _. unfold attach_pos. rewrite E. eexists; split; eauto.
  - destruct IH as [f0 IH]. exists (S f0). intros f Hf. destruct f as [|f]; [lia|].
    destruct (IH f ltac:(lia)) as [pq [Hpq ->]].
    destruct (segment_on_ok _ _ _ (store_conn _ _ _ Hb Ew) Eq) as [Hq1 Hq2].
    unfold attach_pos. rewrite Ep, Ew, Eat, String.eqb_refl, Eq, seg_position_attach by auto.
    rewrite Hq1, root_end_tip, String.eqb_refl, Hpq. simpl.
    eexists; split; [reflexivity|]. vunf; rnum; f_equal; ring.
Qed.

Lemma in_wing_conn (pl : airplane R) w s : built pl -> In w (a_store pl) -> In s (wing_segments w) -> seg_conn_ok s.
Proof.
  intros Hb Hw Hs. pose proof (built_conn pl Hb) as Hf. rewrite Forall_forall in Hf.
  destruct (Hf w Hw) as [Hl Hr]. unfold wing_segments in Hs.
  destruct w as [n [] [l|] [r|]]; simpl in *; intuition subst; try (now apply Hl); now apply Hr.
Qed.

(** The root of a segment is where [sits] says, the tip a root-to-tip vector away. *)
Lemma attached_root_tip (pl : airplane R) : built pl -> forall w s p,
  In w (a_store pl) -> In s (wing_segments w) ->
  (sits pl s p <-> exists f, seg_position f pl s (root_end (sg_side s)) = Ok p) /\
  (sits pl s p <-> exists f, seg_position f pl s (tip_end (sg_side s)) = Ok (vadd p (root_to_tip s))).
Proof.
  intros Hb w s p Hw Hs. pose proof (in_wing_conn _ _ _ Hb Hw Hs) as Hc.
  assert (Hadd : forall a b c : vec3 R, vadd a c = vadd b c -> a = b).
  { intros [a1 a2 a3] [b1 b2 b3] [c1 c2 c3]. vunf; rnum. intros H; inversion H. f_equal; lra. }
  split; split.
  - intros H. destruct (sits_attach _ Hb _ _ H) as [f0 Hf]. destruct (Hf f0 (le_n _)) as [q [Hq ->]].
    exists (S f0). rewrite seg_position_attach by auto. rewrite String.eqb_refl, Hq. simpl.
    f_equal. vunf; rnum; f_equal; ring.
  - intros [[|f] H]; [discriminate|]. rewrite seg_position_attach in H by auto.
    rewrite String.eqb_refl in H. destruct (attach_pos f pl s) as [q|] eqn:Eq; [|discriminate].
    simpl in H. inversion H; subst. apply position_sits in Eq; auto.
    replace (vadd (root_shift s) q) with (vadd q (root_shift s)) by (vunf; rnum; f_equal; ring). exact Eq.
  - intros H. destruct (sits_attach _ Hb _ _ H) as [f0 Hf]. destruct (Hf f0 (le_n _)) as [q [Hq ->]].
    exists (S f0). rewrite seg_position_attach by auto. rewrite root_end_tip, String.eqb_refl, Hq. simpl.
    f_equal. vunf; rnum; f_equal; ring.
  - intros [[|f] H]; [discriminate|]. rewrite seg_position_attach in H by auto.
    rewrite root_end_tip, String.eqb_refl in H. destruct (attach_pos f pl s) as [q|] eqn:Eq; [|discriminate].
    simpl in H. pose proof (f_equal (fun r => match r with Ok v => v | Err _ => p end) H) as H1. cbn beta iota in H1. clear H. apply position_sits in Eq; auto.
    replace p with (vadd q (root_shift s)); auto.
    apply (Hadd _ _ (root_to_tip s)). rewrite <- H1. vunf; rnum; f_equal; ring.
Qed.

(** *** Displacement of a parent *)
Lemma hangs_older (pl : airplane R) : all_older pl -> forall id s, hangs_on pl id s ->
  forall i w, nth_error (a_store pl) i = Some w -> (w_left w = Some s \/ w_right w = Some s) -> (id < i)%nat.
Proof.
  intros [Ho _] id s H. induction H as [s E|s j w q E Ew Eq H IH]; intros i w' Hw' Hs.
  - specialize (Ho i w' Hw' s Hs). now rewrite E in Ho.
  - specialize (Ho i w' Hw' s Hs). rewrite E in Ho.
    assert (id < j)%nat; [|lia]. eapply IH; eauto. destruct (sg_side s); simpl in Eq; auto.
Qed.

Lemma attach_moved id d (pl pl' : airplane R) :
  built pl -> all_older pl -> moved id d pl pl' ->
  forall f s i w, nth_error (a_store pl) i = Some w -> (w_left w = Some s \/ w_right w = Some s) ->
  forall p, attach_pos f pl s = Ok p ->
    (hangs_on pl id s -> attach_pos f pl' s = Ok (vadd p d)) /\
    (~ hangs_on pl id s -> attach_pos f pl' s = Ok p).
Proof.
  intros Hb Ho Hm f. induction f as [|f IH]; intros s i w Hw Hs p H; unfold attach_pos in H;
  (destruct (sg_parent s) as [| |j] eqn:Ep;
   [inversion H; subst; split; [intros Hh; inversion Hh; congruence|intros _; unfold attach_pos; now rewrite Ep]
   |inversion H; subst; split; [intros Hh; inversion Hh; congruence|intros _; unfold attach_pos; rewrite Ep; f_equal; apply Hm]
   |destruct (nth_error (a_store pl) j) as [wj|] eqn:Ewj; [|discriminate];
    destruct (String.eqb_spec (sg_connect_at s) (tip_end (sg_side s))) as [Eat|]; [|discriminate];
    destruct (segment_on (sg_side s) wj) as [q|] eqn:Eq; [|discriminate];
    destruct (segment_on_ok _ _ _ (store_conn _ _ _ Hb Ewj) Eq) as [Hq1 Hq2]]).
  - discriminate.
  - rewrite seg_position_attach in H by auto. rewrite Hq1, root_end_tip, String.eqb_refl in H.
    destruct (attach_pos f pl q) as [pq|] eqn:Epq; [|discriminate]. simpl in H. inversion H; subst p; clear H.
    assert (Hq : w_left wj = Some q \/ w_right wj = Some q) by (destruct (sg_side s); simpl in Eq; auto).
    destruct (IH q j wj Ewj Hq pq Epq) as [IH1 IH2].
    destruct Hm as [Hpos Hst]. pose proof (Hst j) as Hj. rewrite Ewj in Hj.
    unfold attach_pos. rewrite Ep, Hj, Eat, String.eqb_refl.
    destruct (Nat.eqb_spec j id) as [->|Hne].
    + (* parent is the displaced wing *)
      assert (Hnq : ~ hangs_on pl id q).
      { intros Hh. pose proof (hangs_older pl Ho id q Hh id wj Ewj Hq). lia. }
      specialize (IH2 Hnq).
      assert (Eq' : segment_on (sg_side s) (move_wing d wj) = Some (move_segment d q)).
      { destruct (sg_side s); simpl in *; rewrite Eq; reflexivity. }
      cbn [option_map]. rewrite Eq'.
      assert (Hc' : seg_conn_ok (move_segment d q)) by exact Hq2.
      rewrite seg_position_attach by auto. simpl sg_side. rewrite Hq1, root_end_tip, String.eqb_refl.
      assert (Ea : attach_pos f pl' (move_segment d q) = attach_pos f pl' q) by reflexivity.
      rewrite Ea, IH2. simpl.
      split; [intros _; f_equal|intros Hn; exfalso; apply Hn; now constructor].
      unfold root_shift, root_to_tip, outward; simpl. rewrite Hq1. vunf; rnum; f_equal; ring.
    + rewrite Eq, seg_position_attach by auto. rewrite Hq1, root_end_tip, String.eqb_refl.
      split.
      * intros Hh. assert (Hhq : hangs_on pl id q).
        { inversion Hh as [s0 E0|s0 i0 w0 q0 E0 Ew0 Eq0 H0]; subst; [congruence|].
          assert (i0 = j) by congruence. subst. assert (w0 = wj) by congruence. subst.
          assert (q0 = q) by congruence. now subst. }
        rewrite (IH1 Hhq). simpl. f_equal. vunf; rnum; f_equal; ring.
      * intros Hn. rewrite IH2; [reflexivity|]. intros Hhq. apply Hn. eapply hangs_through; eauto.
Qed.

Lemma displacement id d (pl pl' : airplane R) :
  built pl -> not_self_attached pl -> moved id d pl pl' ->
  forall i w s at_ p f, nth_error (a_store pl) i = Some w -> In s (wing_segments w) ->
    seg_position f pl s at_ = Ok p ->
    (i <> id -> hangs_on pl id s -> seg_position f pl' s at_ = Ok (vadd p d)) /\
    (i <> id -> ~ hangs_on pl id s -> seg_position f pl' s at_ = Ok p) /\
    (i = id -> seg_position f pl' (move_segment d s) at_ = Ok (vadd p d)).
Proof.
  intros Hb Hn Hm i w s at_ p f Hw Hs H.
  pose proof (built_all_older pl Hb Hn) as Ho.
  assert (Hin : In w (a_store pl)) by (eapply nth_error_In; eauto).
  pose proof (in_wing_conn _ _ _ Hb Hin Hs) as Hc.
  assert (Hlr : w_left w = Some s \/ w_right w = Some s).
  { unfold wing_segments in Hs. destruct w as [n [] [l|] [r|]]; simpl in *; intuition (subst; auto). }
  destruct f as [|f]; [discriminate|].
  rewrite seg_position_attach in H by auto.
  destruct (attach_pos f pl s) as [q|] eqn:Eq.
  2:{ destruct (String.eqb at_ (root_end (sg_side s))), (String.eqb at_ (tip_end (sg_side s))); discriminate. }
  destruct (attach_moved id d pl pl' Hb Ho Hm f s i w Hw Hlr q Eq) as [H1 H2].
  assert (Hc' : seg_conn_ok (move_segment d s)) by exact Hc.
  rewrite !seg_position_attach by auto.
  assert (Ea : attach_pos f pl' (move_segment d s) = attach_pos f pl' s) by reflexivity.
  rewrite Ea. simpl sg_side.
  destruct (String.eqb at_ (root_end (sg_side s))); [|destruct (String.eqb at_ (tip_end (sg_side s))); [|discriminate]];
  simpl in H; inversion H; subst p; (split; [|split]).
  - intros _ Hh. rewrite (H1 Hh). simpl. f_equal. vunf; rnum; f_equal; ring.
  - intros _ Hh. rewrite (H2 Hh). reflexivity.
  - intros ->. rewrite H2; [|intros Hh; pose proof (hangs_older pl Ho id s Hh id w Hw Hlr); lia].
    simpl. f_equal. unfold root_shift, outward; simpl. vunf; rnum; f_equal; ring.
  - intros _ Hh. rewrite (H1 Hh). simpl. f_equal. vunf; rnum; f_equal; ring.
  - intros _ Hh. rewrite (H2 Hh). reflexivity.
  - intros ->. rewrite H2; [|intros Hh; pose proof (hangs_older pl Ho id s Hh id w Hw Hlr); lia].
    simpl. f_equal. unfold root_shift, root_to_tip, outward; simpl. vunf; rnum; f_equal; ring.
Qed.

(** *** C12 *)
Definition cg_calls (vs : list (option R * option R * option R)) : list (api_call R) :=
  map (fun v => CCg (fst (fst v)) (snd (fst v)) (snd v)) vs.

Lemma cg_upd_spec old c : cg_upd old c = last_nonzero old [c].
Proof.
  unfold cg_upd, last_nonzero, ntruthy. destruct c as [v|]; auto. rnum.
  destruct (Req_EM_T v 0) as [->|Hn].
  - replace (Reqb 0 0) with true by (symmetry; now apply Reqb_true). reflexivity.
  - replace (Reqb v 0) with false by (symmetry; now apply Reqb_false). reflexivity.
Qed.
Lemma last_nonzero_cons old v r : last_nonzero old (v :: r) = last_nonzero (last_nonzero old [v]) r.
Proof. destruct v as [v|]; simpl; [destruct (Req_EM_T v 0)|]; reflexivity. Qed.

Lemma run_call_cg_other c (pl : airplane R) : (forall x y z, c <> CCg x y z) -> a_cg (run_call c pl) = a_cg pl.
Proof.
  intros H. destruct c as [n ct s d|id n e p|id p|x y z|la lo|n d|p n d]; simpl; auto.
  - unfold add_wing. destruct (make_wing n s d); auto.
    destruct (fst ct) as [pn|]; [destruct (String.eqb pn "")|]; simpl; auto. destruct (dlookup _ _); auto.
  - unfold wing_airfoil. destruct (nth_error _ _); auto. destruct (make_airfoil _ _); auto.
  - unfold wing_control_surface. destruct (nth_error _ _); auto. destruct (make_cs _); auto.
  - exfalso. eapply H; eauto.
  - unfold add_prop. destruct (make_prop _ _); auto.
  - unfold prop_airfoil. destruct (dget _ _); auto. destruct (make_airfoil _ _); auto.
Qed.

(** the values a history gives for each coordinate *)
Definition given {A} (f : option R -> option R -> option R -> A) (cs : list (api_call R)) : list A :=
  flat_map (fun c => match c with CCg x y z => [f x y z] | _ => [] end) cs.

Lemma cg_history cs : forall pl : airplane R,
  a_cg (run_calls cs pl) =
  V3 (last_nonzero (vx (a_cg pl)) (given (fun x _ _ => x) cs))
     (last_nonzero (vy (a_cg pl)) (given (fun _ y _ => y) cs))
     (last_nonzero (vz (a_cg pl)) (given (fun _ _ z => z) cs)).
Proof.
  induction cs as [|c cs IH]; intros pl; simpl run_calls.
  - simpl. now destruct (a_cg pl).
  - rewrite IH. destruct c; try (rewrite run_call_cg_other by (intros; discriminate); reflexivity).
    unfold run_call, cg_location. cbn [a_cg vx vy vz]. rewrite !cg_upd_spec.
    unfold given. cbn [flat_map app]. now rewrite <- !last_nonzero_cons.
Qed.

Lemma last_nonzero_sticks vs : forall old, old <> 0 -> last_nonzero old vs <> 0.
Proof.
  induction vs as [|[v|] vs IH]; intros old H; simpl; auto. destruct (Req_EM_T v 0); auto.
Qed.

(** *** Displacing a wing in a history displaces it in the airplane *)
Definition moved_full (id : nat) (d : vec3 R) (pl pl' : airplane R) : Prop :=
  (id < List.length (a_store pl))%nat /\ List.length (a_store pl') = List.length (a_store pl) /\
  a_wings pl' = a_wings pl /\ a_props pl' = a_props pl /\
  moved id d pl pl'.

Lemma wing_map_move f d w :
  (forall s, f (move_segment d s) = move_segment d (f s)) ->
  wing_map f (move_wing d w) = move_wing d (wing_map f w).
Proof.
  intros Hf. destruct w as [n [] [l|] [r|]]; unfold wing_map, move_wing; simpl; rewrite ?Hf; reflexivity.
Qed.

Lemma moved_set_nth id d (pl pl' : airplane R) i w w' f :
  moved_full id d pl pl' -> nth_error (a_store pl) i = Some w -> nth_error (a_store pl') i = Some w' ->
  (forall s, f (move_segment d s) = move_segment d (f s)) ->
  moved_full id d (set_wings pl (a_wings pl) (set_nth (a_store pl) i (wing_map f w)))
                  (set_wings pl' (a_wings pl') (set_nth (a_store pl') i (wing_map f w'))).
Proof.
  intros [H1 [H2 [H3 [H4 [H5 H6]]]]] Hw Hw' Hf. unfold moved_full, moved. simpl. rewrite !set_nth_length.
  repeat split; auto. intros j. rewrite !set_nth_nth, H2.
  destruct (Nat.eqb_spec i j) as [->|]; [|apply H6].
  destruct (Nat.ltb_spec j (List.length (a_store pl))) as [Hl|Hl].
  - rewrite H6 in Hw'. destruct (Nat.eqb j id); rewrite Hw in Hw'; simpl in Hw'; inversion Hw'; subst; simpl; auto.
    now rewrite wing_map_move.
  - now destruct (Nat.eqb j id).
Qed.

Lemma run_call_position c (pl : airplane R) : airplane_position (run_call c pl) = airplane_position pl.
Proof.
  destruct c as [n ct s d|id n e p|id p|x y z|la lo|n d|p n d]; simpl; auto.
  - unfold add_wing. destruct (make_wing n s d); auto.
    destruct (fst ct) as [pn|]; [destruct (String.eqb pn "")|]; simpl; auto. destruct (dlookup _ _); auto.
  - unfold wing_airfoil. destruct (nth_error _ _); auto. destruct (make_airfoil _ _); auto.
  - unfold wing_control_surface. destruct (nth_error _ _); auto. destruct (make_cs _); auto.
  - unfold add_prop. destruct (make_prop _ _); auto.
  - unfold prop_airfoil. destruct (dget _ _); auto. destruct (make_airfoil _ _); auto.
Qed.

Lemma moved_run_call id d c (pl pl' : airplane R) :
  moved_full id d pl pl' -> moved_full id d (run_call c pl) (run_call c pl').
Proof.
  intros H. pose proof H as [H1 [H2 [H3 [H4 [H5 H6]]]]].
  destruct c as [n ct s dm|i n e p|i p|x y z|la lo|n dm|p n dm]; simpl; try exact H.
  - unfold add_wing. destruct (make_wing n s dm) as [w|]; [|exact H].
    rewrite H2, H3.
    assert (Happ : forall w0, moved_full id d
       (set_wings pl (dset (a_wings pl) n (List.length (a_store pl))) (a_store pl ++ [w0]))
       (set_wings pl' (dset (a_wings pl) n (List.length (a_store pl))) (a_store pl' ++ [w0]))).
    { intros w0. unfold moved_full, moved. simpl. rewrite !app_length, H2. simpl.
      repeat split; auto; try lia. intros j.
      destruct (Nat.lt_ge_cases j (List.length (a_store pl))) as [Hl|Hl].
      - rewrite !nth_error_app1 by lia. apply H6.
      - rewrite !nth_error_app2, H2 by lia. destruct (Nat.eqb_spec j id); [lia|]. reflexivity. }
    destruct (fst ct) as [pn|]; [destruct (String.eqb pn "")|]; simpl; try apply Happ.
    destruct (dlookup _ pn); simpl; apply Happ.
  - unfold wing_airfoil. pose proof (H6 i) as Hi.
    destruct (nth_error (a_store pl) i) as [w|] eqn:Ew.
    + assert (Hw' : exists w', nth_error (a_store pl') i = Some w').
      { rewrite Hi. destruct (Nat.eqb i id); simpl; eauto. }
      destruct Hw' as [w' Hw']. rewrite Hw'. destruct (make_airfoil n p); simpl; [|exact H].
      eapply moved_set_nth; eauto.
      intros s0. unfold seg_airfoil. repeat destruct (String.eqb _ _); reflexivity.
    + replace (nth_error (a_store pl') i) with (@None (wing R)) by (rewrite Hi; now destruct (Nat.eqb i id)).
      exact H.
  - unfold wing_control_surface. pose proof (H6 i) as Hi.
    destruct (nth_error (a_store pl) i) as [w|] eqn:Ew.
    + assert (Hw' : exists w', nth_error (a_store pl') i = Some w').
      { rewrite Hi. destruct (Nat.eqb i id); simpl; eauto. }
      destruct Hw' as [w' Hw']. rewrite Hw'. destruct (make_cs p); simpl; [|exact H].
      eapply moved_set_nth; eauto.
    + replace (nth_error (a_store pl') i) with (@None (wing R)) by (rewrite Hi; now destruct (Nat.eqb i id)).
      exact H.
  - unfold add_prop. destruct (make_prop n dm); simpl; [|exact H].
    unfold moved_full, moved; simpl. rewrite H4. repeat split; auto.
  - unfold prop_airfoil. rewrite H4. destruct (dget (a_props pl) p); [|exact H].
    destruct (make_airfoil n dm); simpl; [|exact H].
    unfold moved_full, moved; simpl. repeat split; auto.
Qed.

Lemma make_segment_shifted d dims dims' n sd : shifted d dims dims' ->
  make_segment n sd dims' = match make_segment n sd dims with Ok s => Ok (move_segment d s) | Err e => Err e end.
Proof.
  intros [H1 [x [y [z [x' [y' [z' [H2 [H3 H4]]]]]]]]]. unfold make_segment.
  assert (G : forall k v, k <> "position"%string -> dgetd dims' k v = dgetd dims k v).
  { intros k v Hk. unfold dgetd. now rewrite H1. }
  unfold dgetd at 1. rewrite H3. unfold dgetd at 11. rewrite H2.
  cbn [pvec3 pidxn pidx nth_error rbind pnum].
  rewrite !G by discriminate.
  repeat match goal with
    | |- rbind ?a _ = _ => destruct a; cbn [rbind]; [|reflexivity]; rewrite ?G by discriminate
  end.
  rewrite H4. reflexivity.
Qed.

Lemma make_wing_shifted d dims dims' n sd : shifted d dims dims' ->
  make_wing n sd dims' = match make_wing n sd dims with Ok w => Ok (move_wing d w) | Err e => Err e end.
Proof.
  intros H. unfold make_wing. rewrite !(make_segment_shifted _ _ _ _ _ H).
  destruct (String.eqb sd "both"); [|destruct (String.eqb sd "right"); [|destruct (String.eqb sd "left"); [|reflexivity]]];
  repeat match goal with |- context[make_segment ?a ?b ?c] => destruct (make_segment a b c); cbn [rbind]; try reflexivity end.
Qed.

Lemma add_wing_shifted d dims dims' n ct sd (pl : airplane R) id pl1 : shifted d dims dims' ->
  add_wing n ct sd dims pl = (Ok id, pl1) ->
  exists pl1', add_wing n ct sd dims' pl = (Ok id, pl1') /\ moved_full id d pl1 pl1'.
Proof.
  intros H E. unfold add_wing in *. rewrite (make_wing_shifted _ _ _ _ _ H).
  destruct (make_wing n sd dims) as [w|]; [|discriminate].
  assert (Happ : forall p, moved_full (List.length (a_store pl)) d
     (set_wings pl (dset (a_wings pl) n (List.length (a_store pl))) (a_store pl ++ [wing_map (seg_connect p (snd ct)) w]))
     (set_wings pl (dset (a_wings pl) n (List.length (a_store pl))) (a_store pl ++ [wing_map (seg_connect p (snd ct)) (move_wing d w)]))).
  { intros p. rewrite wing_map_move by reflexivity. unfold moved_full, moved. simpl. rewrite !app_length. simpl.
    repeat split; auto; try lia. intros j.
    destruct (Nat.lt_ge_cases j (List.length (a_store pl))) as [Hl|Hl].
    - rewrite !nth_error_app1 by lia. destruct (Nat.eqb_spec j (List.length (a_store pl))); [lia|reflexivity].
    - rewrite !nth_error_app2 by lia. destruct (Nat.eqb_spec j (List.length (a_store pl))) as [->|Hne].
      + rewrite Nat.sub_diag. reflexivity.
      + destruct (j - List.length (a_store pl))%nat as [|k] eqn:Ek; [lia|]. destruct k; reflexivity. }
  destruct (fst ct) as [pn|]; [destruct (String.eqb pn "")|]; simpl in *.
  - inversion E; subst. eexists; split; [reflexivity|apply Happ].
  - destruct (dlookup _ pn); simpl in *; [|discriminate]. inversion E; subst. eexists; split; [reflexivity|apply Happ].
  - inversion E; subst. eexists; split; [reflexivity|apply Happ].
Qed.

(** Same history with one wing displaced. *)
Lemma history_moved d dims dims' n ct sd cs2 (pl : airplane R) id pl1 :
  shifted d dims dims' -> add_wing n ct sd dims pl = (Ok id, pl1) ->
  moved id d (run_calls (CAddWing n ct sd dims :: cs2) pl) (run_calls (CAddWing n ct sd dims' :: cs2) pl).
Proof.
  intros H E. destruct (add_wing_shifted _ _ _ _ _ _ _ _ _ H E) as [pl1' [E' Hm]].
  change (moved id d (run_calls cs2 (snd (add_wing n ct sd dims pl))) (run_calls cs2 (snd (add_wing n ct sd dims' pl)))).
  rewrite E, E'. cbn [snd].
  assert (Hf : moved_full id d (run_calls cs2 pl1) (run_calls cs2 pl1')).
  { clear -Hm. revert pl1 pl1' Hm. induction cs2 as [|c cs IH]; intros pl1 pl1' Hm; simpl; auto.
    apply IH. now apply moved_run_call. }
  apply Hf.
Qed.

(** *** C56 *)
Lemma rot_dir_cases (v : pyval R) :
  (rot_dir v = -1 <-> v = VStr "CW" \/ v = VStr "cw" \/ v = VInt (-1) \/ v = VNum (-1)) /\
  (rot_dir v = 1 \/ rot_dir v = -1).
Proof.
  unfold rot_dir, peq_str, peq_int.
  destruct v as [|b|z|x|s|l|d]; simpl; rnum.
  - split; [|auto]. split; [lra|]. intuition discriminate.
  - destruct b; simpl; (split; [|auto]); (split; [lra|]); intuition discriminate.
  - destruct (Z.eqb_spec z 1) as [->|]; simpl.
    + split; [|auto]. split; [lra|]. intuition discriminate.
    + destruct (Z.eqb_spec z (-1)) as [->|]; simpl.
      * split; [|right; lra]. split; [auto|intros _; lra].
      * split; [|auto]. split; [lra|]. intros H. repeat (destruct H as [H|H]; try discriminate). inversion H. congruence.
  - destruct (Reqb x 1) eqn:E1; simpl.
    + apply Reqb_true in E1. subst. split; [|auto]. split; [lra|].
      intros H. repeat (destruct H as [H|H]; try discriminate). inversion H. lra.
    + destruct (Reqb x (-1)) eqn:E2; simpl.
      * apply Reqb_true in E2. subst. split; [|right; lra]. split; [auto|intros _; lra].
      * apply Reqb_false in E2. split; [|auto]. split; [lra|].
        intros H. repeat (destruct H as [H|H]; try discriminate). inversion H. congruence.
  - rewrite !orb_false_r.
    destruct (String.eqb_spec s "CCW") as [->|]; simpl.
    { split; [|auto]. split; [lra|]. intuition discriminate. }
    destruct (String.eqb_spec s "ccw") as [->|]; simpl.
    { split; [|auto]. split; [lra|]. intuition discriminate. }
    destruct (String.eqb_spec s "CW") as [->|]; simpl.
    { split; [|right; lra]. split; [auto|intros _; lra]. }
    destruct (String.eqb_spec s "cw") as [->|]; simpl.
    { split; [|right; lra]. split; [auto|intros _; lra]. }
    split; [|auto]. split; [lra|]. intros H. repeat (destruct H as [H|H]; try discriminate); inversion H; congruence.
  - split; [|auto]. split; [lra|]. intuition discriminate.
  - split; [|auto]. split; [lra|]. intuition discriminate.
Qed.
