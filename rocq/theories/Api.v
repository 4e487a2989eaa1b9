(** Histories of public calls on an [Airplane], and invariants of every airplane
    that can be built. *)
From Coq Require Import ZArith String Bool Arith Lia List.
From Verif Require Import Base Num Geometry.
Import ListNotations.
Set Implicit Arguments.

Section Api.
  Context {T : Type} {N : num_ops T}.

  (** The public mutators of geometry.py: Airplane.add_wing (275-314),
      Wing.airfoil (589-627) and Wing.control_surface (629-667) on the wing
      returned by an earlier add_wing, Airplane.cg_location (373-391),
      set_reference_lengths (393-406), add_prop (316-346), Prop.airfoil (1069-1110). *)
  Inductive api_call : Type :=
  | CAddWing (name : string) (connect_to : option string * string) (side : string)
             (dims : dict (pyval T))
  | CAirfoil (wing_id : nat) (name end_ : string) (props : dict (pyval T))
  | CControl (wing_id : nat) (props : dict (pyval T))
  | CCg (x y z : option T)
  | CRef (lateral longitudinal : option T)
  | CAddProp (name : string) (dims : dict (pyval T))
  | CPropAirfoil (prop_name af_name : string) (props : dict (pyval T)).

  (** The airplane after the call, whether the call returned or raised. *)
  Definition run_call (c : api_call) (pl : airplane T) : airplane T :=
    match c with
    | CAddWing n ct s d => snd (add_wing n ct s d pl)
    | CAirfoil id n e p => snd (wing_airfoil id n e p pl)
    | CControl id p => snd (wing_control_surface id p pl)
    | CCg x y z => cg_location x y z pl
    | CRef la lo => set_reference_lengths la lo pl
    | CAddProp n d => snd (add_prop n d pl)
    | CPropAirfoil p n d => snd (prop_airfoil p n d pl)
    end.
  Definition run_calls (cs : list api_call) (pl : airplane T) : airplane T :=
    fold_left (fun p c => run_call c p) cs pl.

  (** Every airplane a user can hold: constructed empty or from a file, then
      modified by any history of calls. *)
  Inductive built : airplane T -> Prop :=
  | built_new name pos : built (new_airplane name pos)
  | built_file name pos data pl :
      build_from_file data (new_airplane name pos) = (Ok tt, pl) -> built pl
  | built_call pl c : built pl -> built (run_call c pl).

  Lemma built_calls cs : forall pl, built pl -> built (run_calls cs pl).
  Proof. induction cs; simpl; intros; auto. apply IHcs. now constructor. Qed.

  (** *** Invariance proofs over histories *)
  Definition preserves (P : airplane T -> Prop) {A} (m : st (airplane T) A) : Prop :=
    forall pl, P pl -> P (snd (m pl)).

  Section Inv.
    Variable P : airplane T -> Prop.
    Lemma pres_bind {A B} (m : st _ A) (f : A -> st _ B) :
      preserves P m -> (forall a, preserves P (f a)) -> preserves P (sbind m f).
    Proof.
      intros Hm Hf pl H. unfold sbind. specialize (Hm pl H).
      destruct (m pl) as [[a|e] pl']; simpl in *; auto. now apply Hf.
    Qed.
    Lemma pres_lift {A} (x : res A) : preserves P (slift x).
    Proof. intros pl H; exact H. Qed.
    Lemma pres_ret {A} (x : A) : preserves P (sret x).
    Proof. intros pl H; exact H. Qed.
    Lemma pres_raise {A} e : preserves P (sraise (A := A) e).
    Proof. intros pl H; exact H. Qed.
    Lemma pres_mod f : (forall pl, P pl -> P (f pl)) -> preserves P (smod f).
    Proof. intros Hf pl H; now apply Hf. Qed.
    Lemma pres_iter {A} (f : A -> st _ unit) l : (forall a, preserves P (f a)) -> preserves P (siter f l).
    Proof. intros Hf. induction l; simpl; [apply pres_ret|]. now apply pres_bind. Qed.

    Hypothesis Hcall : forall c pl, P pl -> P (run_call c pl).
    Hypothesis Hname : forall n pl, P pl -> P (set_name n pl).
    Hypothesis Hunits : forall n pl, P pl -> P (set_units n pl).
    Hypothesis Hlong : forall n pl, P pl -> P (set_long n pl).
    Hypothesis Hlat : forall n pl, P pl -> P (set_lat n pl).

    Lemma pres_add_wing n ct s d : preserves P (add_wing n ct s d).
    Proof. intros pl H. exact (Hcall (CAddWing n ct s d) H). Qed.
    Lemma pres_airfoil id n e p : preserves P (wing_airfoil id n e p).
    Proof. intros pl H. exact (Hcall (CAirfoil id n e p) H). Qed.
    Lemma pres_control id p : preserves P (wing_control_surface id p).
    Proof. intros pl H. exact (Hcall (CControl id p) H). Qed.
    Lemma pres_add_prop n d : preserves P (add_prop n d).
    Proof. intros pl H. exact (Hcall (CAddProp n d) H). Qed.
    Lemma pres_prop_airfoil p n d : preserves P (prop_airfoil p n d).
    Proof. intros pl H. exact (Hcall (CPropAirfoil p n d) H). Qed.

    Ltac pres :=
      repeat first
        [ apply pres_bind; [|intros ?]
        | apply pres_lift | apply pres_ret | apply pres_raise
        | apply pres_add_wing | apply pres_airfoil | apply pres_control
        | apply pres_add_prop | apply pres_prop_airfoil
        | apply pres_mod; intros ? ?;
          solve [apply Hname; assumption | apply Hunits; assumption | apply Hlong; assumption
                | apply Hlat; assumption
                | match goal with |- P (cg_location ?x ?y ?z ?p) => apply (Hcall (CCg x y z)); assumption end]
        | match goal with |- preserves P (match ?x with _ => _ end) => destruct x end
        | match goal with |- preserves P (if ?x then _ else _) => destruct x end
        | apply pres_iter; intros ? ].

    Lemma pres_add_wing_file c n v : preserves P (add_wing_from_file c n v).
    Proof. unfold add_wing_from_file. pres. Qed.
    Lemma pres_add_prop_file n v : preserves P (add_prop_from_file n v).
    Proof. unfold add_prop_from_file. pres. Qed.
    Lemma pres_build data : preserves P (build_from_file data).
    Proof.
      unfold build_from_file. pres; try apply pres_add_wing_file; try apply pres_add_prop_file.
    Qed.

    Hypothesis Hnew : forall name pos, P (new_airplane name pos).
    Lemma built_inv pl : built pl -> P pl.
    Proof.
      induction 1 as [name pos|name pos data pl H|pl c H IH]; auto.
      pose proof (@pres_build data (new_airplane name pos) (Hnew name pos)) as H1.
      rewrite H in H1. exact H1.
    Qed.
  End Inv.

  (** *** The two segments of a wing *)

  (** the left segment that corresponds to a right segment *)
  Definition left_twin_of (s : segment T) (name at_ : string) : segment T :=
    MkSegment name SLeft (sg_parent s) at_ (sg_delta s) (sg_is_main s) (sg_yoffset s) (sg_span s)
              (sg_root_chord s) (sg_tip_chord s) (sg_sweep s) (sg_dihedral s) (sg_mount s)
              (sg_washout s) (sg_root_af s) (sg_tip_af s) (sg_control s) (sg_num s).

  Definition connect_ok (s : segment T) : Prop :=
    sg_parent s = PNone /\ sg_connect_at s = "tip"%string \/
    exists at_, sg_connect_at s = (side_str (sg_side s) ++ "_" ++ at_)%string.

  Definition wing_ok (w : wing T) : Prop :=
    match w_side w with
    | WBoth => exists l r, w_left w = Some l /\ w_right w = Some r /\
                 sg_side r = SRight /\
                 sg_name l = ("left_" ++ w_name w)%string /\
                 sg_name r = ("right_" ++ w_name w)%string /\
                 l = left_twin_of r (sg_name l) (sg_connect_at l) /\
                 (sg_parent r = PNone /\ sg_connect_at l = "tip" /\ sg_connect_at r = "tip" \/
                  exists at_, sg_connect_at l = "left_" ++ at_ /\ sg_connect_at r = "right_" ++ at_)%string
    | WRight => w_left w = None /\ exists r, w_right w = Some r /\ sg_side r = SRight /\
                 sg_name r = ("right_" ++ w_name w)%string
    | WLeft => w_right w = None /\ exists l, w_left w = Some l /\ sg_side l = SLeft /\
                 sg_name l = ("left_" ++ w_name w)%string
    end.

  Lemma make_wing_ok n s d w : make_wing n s d = Ok w -> wing_ok w /\ w_name w = n.
  Proof.
    unfold make_wing, make_segment.
    destruct (pvec3 _) as [dp|]; [|destruct (String.eqb s "both"), (String.eqb s "right"), (String.eqb s "left"); discriminate].
    cbn [rbind].
    repeat match goal with
    | |- context[rbind ?x _] =>
        destruct x;
        cbn [rbind]; [|destruct (String.eqb s "both"), (String.eqb s "right"), (String.eqb s "left"); discriminate]
    end.
    destruct (String.eqb s "both"); [|destruct (String.eqb s "right"); [|destruct (String.eqb s "left")]];
    intros H; inversion H; subst; clear H; simpl; split; auto; unfold wing_ok; simpl.
    - do 2 eexists. repeat split; eauto.
    - split; auto. eexists; repeat split; eauto.
    - split; auto. eexists; repeat split; eauto.
  Qed.

  Lemma wing_map_connect_ok p at_ w : wing_ok w -> wing_ok (wing_map (seg_connect p at_) w).
  Proof.
    unfold wing_ok, wing_map. destruct w as [n [] l r]; simpl.
    - intros (l' & r' & -> & -> & Hr & Hnl & Hnr & Htw & _). simpl.
      exists (seg_connect p at_ l'), (seg_connect p at_ r'). simpl.
      assert (Hl : sg_side l' = SLeft) by (rewrite Htw; reflexivity).
      rewrite Hl, Hr. simpl. repeat split; auto.
      + rewrite Htw at 1. destruct r'; reflexivity.
      + right. eexists; split; reflexivity.
    - intros (-> & r' & -> & Hr & Hn). simpl. split; auto. eexists; repeat split; eauto.
    - intros (-> & r' & -> & Hr & Hn). simpl. split; auto. eexists; repeat split; eauto.
  Qed.

  Lemma seg_airfoil_fields e af (s : segment T) :
    exists a b, seg_airfoil e af s = seg_set_airfoils a b s /\
      forall s', sg_root_af s' = sg_root_af s -> sg_tip_af s' = sg_tip_af s ->
                 seg_airfoil e af s' = seg_set_airfoils a b s'.
  Proof.
    unfold seg_airfoil. destruct (String.eqb e "both"); [do 2 eexists; split; eauto|].
    destruct (String.eqb e "root");
      [exists af, (sg_tip_af s); split; auto; intros s' H1 H2; now rewrite H2|].
    destruct (String.eqb e "tip");
      [exists (sg_root_af s), af; split; auto; intros s' H1 H2; now rewrite H1|].
    exists (sg_root_af s), (sg_tip_af s). split; [destruct s; reflexivity|].
    intros s' <- <-. destruct s'; reflexivity.
  Qed.

  Lemma wing_map_airfoil_ok e af w : wing_ok w -> wing_ok (wing_map (seg_airfoil e af) w).
  Proof.
    unfold wing_ok, wing_map. destruct w as [n [] l r]; simpl.
    - intros (l' & r' & -> & -> & Hr & Hnl & Hnr & Htw & Hc). simpl.
      destruct (seg_airfoil_fields e af r') as (a & b & Er & Ea).
      exists (seg_set_airfoils a b l'), (seg_set_airfoils a b r'). rewrite Er.
      rewrite (Ea l') by (rewrite Htw; reflexivity). simpl. repeat split; auto.
      rewrite Htw at 1. reflexivity.
    - intros (-> & r' & -> & Hr & Hn). simpl. split; auto.
      destruct (seg_airfoil_fields e af r') as (a & b & Er & Ea). rewrite Er.
      eexists; repeat split; eauto.
    - intros (-> & r' & -> & Hr & Hn). simpl. split; auto.
      destruct (seg_airfoil_fields e af r') as (a & b & Er & Ea). rewrite Er.
      eexists; repeat split; eauto.
  Qed.

  Lemma wing_map_control_ok c w : wing_ok w -> wing_ok (wing_map (seg_control_surface c) w).
  Proof.
    unfold wing_ok, wing_map. destruct w as [n [] l r]; simpl.
    - intros (l' & r' & -> & -> & Hr & Hnl & Hnr & Htw & Hc). simpl.
      exists (seg_control_surface c l'), (seg_control_surface c r'). simpl. repeat split; auto.
      rewrite Htw at 1. reflexivity.
    - intros (-> & r' & -> & Hr & Hn). simpl. split; auto. eexists; repeat split; eauto.
    - intros (-> & r' & -> & Hr & Hn). simpl. split; auto. eexists; repeat split; eauto.
  Qed.

  Lemma set_nth_length {A} (l : list A) i x : List.length (set_nth l i x) = List.length l.
  Proof. revert i; induction l; destruct i; simpl; auto. Qed.
  Lemma set_nth_nth {A} (l : list A) i x j :
    nth_error (set_nth l i x) j =
    if Nat.eqb i j then (if Nat.ltb j (List.length l) then Some x else None) else nth_error l j.
  Proof.
    revert i j. induction l as [|y l IH]; intros i j.
    - simpl. destruct i, j; simpl; auto; destruct (Nat.eqb _ _); auto.
    - destruct i as [|i], j as [|j]; simpl; auto.
      rewrite IH. destruct (Nat.eqb i j); auto.
  Qed.
  Lemma set_nth_Forall {A} (P : A -> Prop) l i x : Forall P l -> P x -> Forall P (set_nth l i x).
  Proof.
    intros Hl Hx. revert i. induction Hl; intros [|i]; simpl; constructor; auto.
  Qed.

  (** A predicate on wings that every mutator preserves holds of all wings. *)
  Lemma store_inv (Q : wing T -> Prop) :
    (forall n s d w, make_wing n s d = Ok w -> Q w) ->
    (forall p at_ w, Q w -> Q (wing_map (seg_connect p at_) w)) ->
    (forall e af w, Q w -> Q (wing_map (seg_airfoil e af) w)) ->
    (forall c w, Q w -> Q (wing_map (seg_control_surface c) w)) ->
    forall pl, built pl -> Forall Q (a_store pl).
  Proof.
    intros Hm Hc Ha Hcs pl. apply (built_inv (fun p => Forall Q (a_store p))); auto.
    - intros [n ct s d|id n e p|id p|x y z|la lo|n d|p n d] p0 H; simpl; auto.
      + unfold add_wing. destruct (make_wing n s d) eqn:E; simpl; auto.
        assert (Forall Q (a_store p0 ++ [a])) by (apply Forall_app; split; eauto).
        destruct (fst ct) as [pn|]; [destruct (String.eqb pn "")|]; simpl.
        * apply Forall_app; split; auto. constructor; eauto.
        * destruct (dlookup _ pn); simpl; auto. apply Forall_app; split; auto. constructor; eauto.
        * apply Forall_app; split; auto. constructor; eauto.
      + unfold wing_airfoil. destruct (nth_error (a_store p0) id) eqn:E; simpl; auto.
        destruct (make_airfoil n p); simpl; auto. apply set_nth_Forall; auto.
        apply Ha. rewrite Forall_forall in H. apply H. eapply nth_error_In; eauto.
      + unfold wing_control_surface. destruct (nth_error (a_store p0) id) eqn:E; simpl; auto.
        destruct (make_cs p); simpl; auto. apply set_nth_Forall; auto.
        apply Hcs. rewrite Forall_forall in H. apply H. eapply nth_error_In; eauto.
      + unfold add_prop. destruct (make_prop n d); auto.
      + unfold prop_airfoil. destruct (dget (a_props p0) p); auto. destruct (make_airfoil n d); auto.
    - intros; constructor.
  Qed.

  Lemma built_wings_ok pl : built pl -> Forall wing_ok (a_store pl).
  Proof.
    apply store_inv.
    - intros n s d w H. apply make_wing_ok in H. tauto.
    - intros; now apply wing_map_connect_ok.
    - intros; now apply wing_map_airfoil_ok.
    - intros; now apply wing_map_control_ok.
  Qed.

  (** *** Order of the wings *)

  (** The call returns (does not raise). *)
  Definition call_returns (c : api_call) (pl : airplane T) : Prop :=
    match c with
    | CAddWing n ct s d => exists id, fst (add_wing n ct s d pl) = Ok id
    | CAirfoil id n e p => exists a, fst (wing_airfoil id n e p pl) = Ok a
    | CControl id p => exists a, fst (wing_control_surface id p pl) = Ok a
    | CCg _ _ _ | CRef _ _ => True
    | CAddProp n d => exists a, fst (add_prop n d pl) = Ok a
    | CPropAirfoil p n d => exists a, fst (prop_airfoil p n d pl) = Ok a
    end.
  Fixpoint all_return (cs : list api_call) (pl : airplane T) : Prop :=
    match cs with
    | [] => True
    | c :: r => call_returns c pl /\ all_return r (run_call c pl)
    end.
  (** Names and sides of the wings added by a history, in order. *)
  Definition added (cs : list api_call) : list (string * string) :=
    flat_map (fun c => match c with CAddWing n _ s _ => [(n, s)] | _ => [] end) cs.

  Definition wside_str (s : wing_side) : string :=
    match s with WBoth => "both" | WRight => "right" | WLeft => "left" end.
  Definition wing_label (w : wing T) : string * string := (w_name w, wside_str (w_side w)).

  Definition wings_are (l : list (string * string)) (pl : airplane T) : Prop :=
    a_wings pl = combine (map fst l) (seq 0 (List.length l)) /\ map wing_label (a_store pl) = l.

  Lemma wing_map_label f w : wing_label (wing_map f w) = wing_label w.
  Proof. unfold wing_label, wing_map. destruct w as [n [] l r]; reflexivity. Qed.

  Lemma set_nth_label l i (w w' : wing T) : nth_error l i = Some w -> wing_label w' = wing_label w ->
    map wing_label (set_nth l i w') = map wing_label l.
  Proof.
    revert i. induction l as [|x l IH]; intros [|i] H E; simpl in *; try discriminate.
    - inversion H; subst. now rewrite E.
    - f_equal. eauto.
  Qed.

  Lemma make_wing_label n s d w : make_wing n s d = Ok w -> wing_label w = (n, s).
  Proof.
    unfold make_wing, wing_label.
    destruct (String.eqb_spec s "both") as [->|_];
      [|destruct (String.eqb_spec s "right") as [->|_];
        [|destruct (String.eqb_spec s "left") as [->|_]; [|discriminate]]];
    repeat match goal with |- context[rbind (make_segment ?a ?b ?c) _] =>
      destruct (make_segment a b c); cbn [rbind] end;
    intros H; inversion H; reflexivity.
  Qed.

  Lemma dset_combine_new l k n v :
    ~ In n l -> dset (combine l (seq k (List.length l))) n v = (combine l (seq k (List.length l)) ++ [(n, v)])%list.
  Proof.
    revert k. induction l as [|x l IH]; intros k H; simpl in *; auto.
    destruct (String.eqb_spec n x) as [->|]; [exfalso; auto|]. f_equal. apply IH. auto.
  Qed.

  Lemma combine_snoc (l : list string) k n :
    combine (l ++ [n]) (seq k (List.length (l ++ [n])))
    = (combine l (seq k (List.length l)) ++ [(n, (k + List.length l)%nat)])%list.
  Proof.
    revert k. induction l as [|x l IH]; intros k; simpl; [now rewrite Nat.add_0_r|].
    rewrite IH. now rewrite Nat.add_succ_r.
  Qed.

  Lemma wings_are_run cs : forall l pl,
    wings_are l pl -> NoDup (map fst l ++ map fst (added cs)) -> all_return cs pl ->
    wings_are (l ++ added cs) (run_calls cs pl).
  Proof.
    induction cs as [|c cs IH]; intros l pl Hl Hnd Hret.
    - simpl. now rewrite app_nil_r.
    - destruct Hret as [Hc Hret]. cbn [run_calls fold_left].
      change (fold_left _ cs (run_call c pl)) with (run_calls cs (run_call c pl)).
      destruct Hl as [Hw Hs].
      assert (Hlen : List.length (a_store pl) = List.length l)
        by (rewrite <- Hs, map_length; reflexivity).
      destruct c as [n ct s d|id n e p|id p|x y z|la lo|n d|p n d];
        try (cbn [added flat_map app]; apply IH; auto; split; auto; fail).
      + cbn [added flat_map app]. change (flat_map _ cs) with (added cs).
        replace (l ++ (n, s) :: added cs) with ((l ++ [(n, s)]) ++ added cs)
          by (rewrite <- app_assoc; reflexivity).
        cbn [added flat_map app] in Hnd. change (flat_map _ cs) with (added cs) in Hnd.
        apply IH; auto.
        2:{ rewrite map_app, <- app_assoc. simpl. exact Hnd. }
        simpl in Hc |- *. destruct Hc as [id Hc].
        unfold add_wing in *. destruct (make_wing n s d) as [w|] eqn:Ew; [|discriminate].
        pose proof (make_wing_label _ _ _ Ew) as Hlab.
        assert (Hni : ~ In n (map fst l)).
        { intros Hin. apply NoDup_remove_2 in Hnd. apply Hnd. apply in_or_app. auto. }
        assert (Hset : dset (a_wings pl) n (List.length (a_store pl))
                       = combine (map fst (l ++ [(n, s)])) (seq 0 (List.length (l ++ [(n, s)])))).
        { rewrite Hw, Hlen. rewrite map_app. simpl map.
          pose proof (combine_snoc (map fst l) 0 n) as Hcs. rewrite app_length, map_length in Hcs. simpl in Hcs.
          rewrite app_length. simpl. rewrite Hcs. rewrite <- (map_length fst l).
          now apply dset_combine_new. }
        destruct (match fst ct with Some _ => _ | None => _ end) as [par|] eqn:Epar; [|discriminate].
        simpl. split; simpl; auto.
        rewrite map_app, Hs. simpl. now rewrite wing_map_label, Hlab.
      + cbn [added flat_map app]. apply IH; auto. simpl. unfold wing_airfoil.
        destruct (nth_error (a_store pl) id) eqn:E; [|split; auto].
        destruct (make_airfoil n p); [|split; auto]. split; auto. simpl.
        erewrite set_nth_label; eauto. apply wing_map_label.
      + cbn [added flat_map app]. apply IH; auto. simpl. unfold wing_control_surface.
        destruct (nth_error (a_store pl) id) eqn:E; [|split; auto].
        destruct (make_cs p); [|split; auto]. split; auto. simpl.
        erewrite set_nth_label; eauto. apply wing_map_label.
      + cbn [added flat_map app]. apply IH; auto. simpl. unfold add_prop.
        destruct (make_prop n d); split; auto.
      + cbn [added flat_map app]. apply IH; auto. simpl. unfold prop_airfoil.
        destruct (dget (a_props pl) p); [|split; auto]. destruct (make_airfoil n d); split; auto.
  Qed.

  Lemma lookup_wings_all l pl : wings_are l pl -> lookup_wings pl = a_store pl.
  Proof.
    intros [Hw Hs]. unfold lookup_wings. rewrite Hw.
    assert (Hlen : List.length (a_store pl) = List.length l)
      by (rewrite <- Hs, map_length; reflexivity).
    assert (G : forall (sto sto' : list (wing T)) (l : list string) k,
              List.length sto = List.length l ->
              (forall i, i < List.length sto -> nth_error sto' (k + i) = nth_error sto i) ->
              flat_map (fun e => optl (nth_error sto' (snd e))) (combine l (seq k (List.length l))) = sto).
    { clear. induction sto as [|w sto IH]; intros sto' l k Hl Hn; destruct l; simpl in *; try discriminate; auto.
      pose proof (Hn 0 ltac:(lia)) as H0. rewrite Nat.add_0_r in H0. rewrite H0. simpl. f_equal.
      apply IH; auto. intros i Hi. specialize (Hn (S i) ltac:(lia)). simpl in Hn. rewrite <- Hn. f_equal. lia. }
    rewrite <- (map_length fst l). apply G; [now rewrite map_length|]. intros i Hi. reflexivity.
  Qed.

  Lemma wing_ok_names w : wing_ok w ->
    map (@sg_name T) (wing_segments w) =
    match w_side w with
    | WBoth => ["left_" ++ w_name w; "right_" ++ w_name w]
    | WRight => ["right_" ++ w_name w]
    | WLeft => ["left_" ++ w_name w]
    end%string.
  Proof.
    unfold wing_ok, wing_segments. destruct (w_side w).
    - intros (l & r & -> & -> & _ & Hl & Hr & _). simpl. now rewrite Hl, Hr.
    - intros (_ & r & -> & _ & Hr). simpl. now rewrite Hr.
    - intros (_ & r & -> & _ & Hr). simpl. now rewrite Hr.
  Qed.
End Api.
Arguments api_call T : clear implicits.
