(** Proofs about loading an airplane description (C16). *)
From Coq Require Import ZArith String Bool Arith Lia List.
From Verif Require Import Base Num Geometry Api Spec_File.
Import ListNotations.
Local Open Scope string_scope.
Local Open Scope list_scope.

Section File.
  Context {T : Type} {N : num_ops T}.
  Notation pyval := (pyval T).

  Lemma sbind_ok {S A B} (m : st S A) (f : A -> st S B) s b s2 :
    sbind m f s = (Ok b, s2) <-> exists a s1, m s = (Ok a, s1) /\ f a s1 = (Ok b, s2).
  Proof.
    unfold sbind. destruct (m s) as [[a|e] s1]; split.
    - intros H. exists a, s1. auto.
    - intros [a' [s1' [H1 H2]]]. inversion H1; subst; auto.
    - discriminate.
    - intros [a' [s1' [H1 H2]]]. discriminate.
  Qed.
  Lemma slift_bind {S A B} (x : res A) (f : A -> st S B) s b s2 :
    sbind (slift x) f s = (Ok b, s2) <-> exists a, x = Ok a /\ f a s = (Ok b, s2).
  Proof.
    unfold sbind, slift. destruct x as [a|e]; split.
    - intros H. exists a. auto.
    - intros [a' [H1 H2]]. inversion H1; subst; auto.
    - discriminate.
    - intros [a' [H1 H2]]. discriminate.
  Qed.
  Lemma smod_bind {S B} (g : S -> S) (f : unit -> st S B) s r :
    sbind (smod g) f s = r <-> f tt (g s) = r.
  Proof. reflexivity. Qed.
  Lemma rbind_ok {A B} (x : res A) (f : A -> res B) b :
    rbind x f = Ok b <-> exists a, x = Ok a /\ f a = Ok b.
  Proof.
    destruct x as [a|e]; simpl; split.
    - intros H. exists a. auto.
    - intros [a' [H1 H2]]. inversion H1; subst; auto.
    - discriminate.
    - intros [a' [H1 H2]]. discriminate.
  Qed.

  Lemma pget_ok (v : pyval) k x : pget v k = Ok x <-> field v k = Some x.
  Proof.
    unfold pget, field, dlookup. destruct v; split; try discriminate; destruct (dget d k); intros H; inversion H; auto.
  Qed.
  Lemma pget_at (v : pyval) k x : pget v k = Ok x -> x = at_ v k.
  Proof. intros H. apply pget_ok in H. unfold at_. now rewrite H. Qed.
  Lemma pnum_ok (v : pyval) y : pnum v = Ok y -> is_number v.
  Proof. destruct v; simpl; try discriminate; auto. Qed.
  Lemma pnum_is (v : pyval) : is_number v -> exists y, pnum v = Ok y.
  Proof. destruct v as [|[]| | | | |]; simpl; try contradiction; eauto. Qed.
  Lemma pnum_opt_ok (v : pyval) y : pnum_opt v = Ok y -> is_number_or_none v /\ y = num_of v.
  Proof.
    destruct v as [|[]| | | | |]; simpl; try discriminate; intros H; inversion H; subst; unfold is_number_or_none; simpl; auto.
  Qed.
  Lemma pnum_opt_is (v : pyval) : is_number_or_none v -> pnum_opt v = Ok (num_of v).
  Proof. intros [->|H]; [reflexivity|]. destruct v as [|[]| | | | |]; simpl in *; try contradiction; auto. Qed.
  Lemma pnat_ok (v : pyval) y : pnat v = Ok y -> is_count v.
  Proof.
    destruct v; simpl; try discriminate. destruct (Z.ltb_spec z 0); [discriminate|]. intros _. exists z. auto.
  Qed.
  Lemma pnat_is (v : pyval) : is_count v -> exists y, pnat v = Ok y.
  Proof. intros [z [-> H]]. simpl. destruct (Z.ltb_spec z 0); [lia|]. eauto. Qed.
  Lemma pgets_ok (v : pyval) k s : pgets v k = Ok s <-> field v k = Some (VStr s).
  Proof.
    unfold pgets. rewrite rbind_ok. split.
    - intros [a [H1 H2]]. apply pget_ok in H1. rewrite H1. destruct a; simpl in H2; try discriminate.
      inversion H2; auto.
    - intros H. exists (VStr s). split; auto. now apply pget_ok.
  Qed.
  Lemma at_field (v : pyval) k x : field v k = Some x -> at_ v k = x.
  Proof. unfold at_. now intros ->. Qed.

  (** Splits a successful computation into the success of its steps. *)
  Ltac inv1 :=
    match goal with
    | H : sbind (slift _) _ _ = (Ok _, _) |- _ =>
        apply slift_bind in H; let a := fresh "x" in let E := fresh "E" in destruct H as [a [E H]]
    | H : sbind (smod _) _ _ = _ |- _ => apply smod_bind in H
    | H : sbind _ _ _ = (Ok _, _) |- _ =>
        apply sbind_ok in H; let a := fresh "x" in let s := fresh "s" in let E := fresh "E" in
        destruct H as [a [s [E H]]]
    | H : rbind _ _ = Ok _ |- _ =>
        apply rbind_ok in H; let a := fresh "x" in let E := fresh "E" in destruct H as [a [E H]]
    | H : sret _ _ = (Ok _, _) |- _ => unfold sret in H; inversion H; subst; clear H
    | H : sraise _ _ = (Ok _, _) |- _ => discriminate H
    end.
  Ltac inv := repeat inv1.

  (** *** Airfoils *)
  Lemma copy_keys_ok keys : forall (v : pyval) r,
    copy_keys keys v = Ok r ->
    r = map (fun k => (k, at_ v k)) keys /\ forall k, In k keys -> field v k = Some (at_ v k).
  Proof.
    induction keys as [|k ks IH]; simpl; intros v r H.
    - inversion H; subst. split; auto. contradiction.
    - inv. inversion H; subst. apply IH in E0. destruct E0 as [-> Hf].
      pose proof (pget_at _ _ _ E) as Hx. subst x. apply pget_ok in E.
      split; auto. intros k' [->|Hin]; auto.
  Qed.
  Lemma copy_keys_is keys : forall (v : pyval),
    (forall k, In k keys -> exists x, field v k = Some x) ->
    copy_keys keys v = Ok (map (fun k => (k, at_ v k)) keys).
  Proof.
    induction keys as [|k ks IH]; simpl; intros v H; auto.
    destruct (H k (or_introl eq_refl)) as [x Hx]. pose proof (at_field _ _ _ Hx) as Ha.
    apply pget_ok in Hx. rewrite Hx. simpl. rewrite IH by auto. simpl. now rewrite Ha.
  Qed.

  Definition eight (f : string -> pyval) : dict pyval :=
    map (fun k => (k, f k)) ["alpha_L0"; "CL_alpha"; "Cm_L0"; "Cm_alpha"; "CD0"; "CD0_L"; "CD0_L2"; "CL_max"].

  Lemma make_airfoil_args n (pre : dict pyval) f :
    (pre = [] \/ exists v, pre = [("span_position", v)]) ->
    (exists a, make_airfoil n (pre ++ eight f) = Ok a) <->
    (forall k, In k ["alpha_L0"; "CL_alpha"; "Cm_L0"; "Cm_alpha"; "CD0"; "CD0_L"; "CD0_L2"; "CL_max"] -> is_number (f k)).
  Proof.
    intros Hpre. 
    assert (Hg : forall k, In k ["alpha_L0"; "CL_alpha"; "Cm_L0"; "Cm_alpha"; "CD0"; "CD0_L"; "CD0_L2"; "CL_max"] ->
              pgetn (VDict (pre ++ eight f)) k = pnum (f k)).
    { intros k Hk. unfold pgetn, pget, dlookup.
      destruct Hpre as [->|[v ->]]; simpl in Hk;
      repeat (destruct Hk as [<-|Hk]; [reflexivity|]); contradiction. }
    unfold make_airfoil.
    assert (Ht : dtruthy (pre ++ eight f) = true) by (destruct Hpre as [->|[v ->]]; reflexivity).
    rewrite Ht. cbv zeta. rewrite !Hg by (simpl; tauto).
    split.
    - intros [a H]. inv. intros k Hk. simpl in Hk.
      repeat (destruct Hk as [<-|Hk]; [eapply pnum_ok; eassumption|]); contradiction.
    - intros H.
      assert (H' : forall k, In k ["alpha_L0"; "CL_alpha"; "Cm_L0"; "Cm_alpha"; "CD0"; "CD0_L"; "CD0_L2"; "CL_max"] ->
                exists y, pnum (f k) = Ok y) by (intros; apply pnum_is; auto).
      destruct (H' "alpha_L0" ltac:(simpl; tauto)) as [y1 ->].
      destruct (H' "CL_alpha" ltac:(simpl; tauto)) as [y2 ->].
      destruct (H' "CL_max" ltac:(simpl; tauto)) as [y3 ->].
      destruct (H' "Cm_L0" ltac:(simpl; tauto)) as [y4 ->].
      destruct (H' "Cm_alpha" ltac:(simpl; tauto)) as [y5 ->].
      destruct (H' "CD0" ltac:(simpl; tauto)) as [y6 ->].
      destruct (H' "CD0_L" ltac:(simpl; tauto)) as [y7 ->].
      destruct (H' "CD0_L2" ltac:(simpl; tauto)) as [y8 ->].
      simpl. eauto.
  Qed.

  (** reading and using one airfoil entry *)
  Lemma airfoil_entry_ok (v pr : pyval) rk :
    pget v "properties" = Ok pr -> copy_keys airfoil_keys pr = Ok rk ->
    rk = airfoil_args v /\
    forall pre n, (pre = [] \/ exists s, pre = [("span_position", s)]) ->
      ((exists a, make_airfoil n (pre ++ rk)%list = Ok a) <-> good_airfoil v).
  Proof.
    intros H1 H2. apply copy_keys_ok in H2. destruct H2 as [-> Hf].
    pose proof (pget_at _ _ _ H1) as Hp. subst pr. apply pget_ok in H1.
    split; [reflexivity|]. intros pre n Hpre.
    change (map (fun k => (k, at_ (at_ v "properties") k)) airfoil_keys) with (eight (fun k => at_ (at_ v "properties") k)).
    rewrite make_airfoil_args by auto. split.
    - intros H. exists (at_ v "properties"). split; auto. intros k Hk. exists (at_ (at_ v "properties") k).
      split; [apply Hf; exact Hk|now apply H].
    - intros [pr [Hpr H]] k Hk. rewrite Hpr in H1. inversion H1; subst. destruct (H k Hk) as [x [Hx Hn]].
      now rewrite (at_field _ _ _ Hx).
  Qed.
  Lemma good_airfoil_reads (v : pyval) : good_airfoil v ->
    pget v "properties" = Ok (at_ v "properties") /\
    copy_keys airfoil_keys (at_ v "properties") = Ok (airfoil_args v).
  Proof.
    intros [pr [Hpr H]]. rewrite (at_field _ _ _ Hpr). split; [now apply pget_ok|].
    rewrite copy_keys_is.
    - unfold airfoil_args. now rewrite (at_field _ _ _ Hpr).
    - intros k Hk. destruct (H k) as [x [Hx _]]; eauto.
  Qed.

  (** *** Segments, control surfaces, propellers from file dictionaries *)
  Definition dims_of (dx dy dz im yo sp sw di mo wa rc tc gr : pyval) : dict pyval :=
    [("position", VList [dx; dy; dz]); ("is_main", im); ("yoffset", yo);
     ("semispan", sp); ("sweep", sw); ("dihedral", di); ("mount_angle", mo);
     ("washout", wa); ("root_chord", rc); ("tip_chord", tc); ("grid", gr)].

  Lemma make_segment_dims n sd dx dy dz im yo sp sw di mo wa rc tc gr :
    (exists s, make_segment n sd (dims_of dx dy dz im yo sp sw di mo wa rc tc gr) = Ok s) <->
    is_number dx /\ is_number dy /\ is_number dz /\ is_number yo /\ is_number sp /\ is_number sw /\
    is_number di /\ is_number mo /\ is_number wa /\ is_number rc /\ is_number tc /\ is_count gr.
  Proof.
    unfold make_segment, dims_of.
    change (dgetd _ "position" _) with (VList [dx; dy; dz]).
    change (dgetd _ "yoffset" _) with yo.
    change (dgetd _ "semispan" _) with sp.
    change (dgetd _ "root_chord" _) with rc.
    change (dgetd _ "sweep" _) with sw.
    change (dgetd _ "dihedral" _) with di.
    change (dgetd _ "mount_angle" _) with mo.
    change (dgetd _ "washout" _) with wa.
    change (dgetd _ "grid" _) with gr.
    unfold pvec3, pidxn. cbn [pidx nth_error rbind].
    split.
    - intros [s H]. inv.
      assert (Etc : forall d, dgetd [("position", VList [dx; dy; dz]); ("is_main", im); ("yoffset", yo);
         ("semispan", sp); ("sweep", sw); ("dihedral", di); ("mount_angle", mo);
         ("washout", wa); ("root_chord", rc); ("tip_chord", tc); ("grid", gr)] "tip_chord" d = tc) by reflexivity.
      rewrite Etc in *.
      repeat match goal with H : pnum _ = Ok _ |- _ => apply pnum_ok in H | H : pnat _ = Ok _ |- _ => apply pnat_ok in H end.
      inv. repeat match goal with H : pnum _ = Ok _ |- _ => apply pnum_ok in H end. tauto.
    - intros H. destruct H as [H1 [H2 [H3 [H4 [H5 [H6 [H7 [H8 [H9 [H10 [H11 H12]]]]]]]]]]].
      destruct (pnum_is _ H1) as [y1 ->]. destruct (pnum_is _ H2) as [y2 ->]. destruct (pnum_is _ H3) as [y3 ->].
      destruct (pnum_is _ H4) as [y4 ->]. destruct (pnum_is _ H5) as [y5 ->]. destruct (pnum_is _ H10) as [y10 ->].
      cbn [rbind]. change (dgetd _ "tip_chord" _) with tc.
      destruct (pnum_is _ H11) as [y11 ->]. destruct (pnum_is _ H6) as [y6 ->]. destruct (pnum_is _ H7) as [y7 ->].
      destruct (pnum_is _ H8) as [y8 ->]. destruct (pnum_is _ H9) as [y9 ->]. destruct (pnat_is _ H12) as [y12 ->].
      cbn [rbind]. eauto.
  Qed.

  Lemma make_wing_file n sd dx dy dz im yo sp sw di mo wa rc tc gr :
    (exists w, make_wing n sd (dims_of dx dy dz im yo sp sw di mo wa rc tc gr) = Ok w) <->
    (sd = "both" \/ sd = "left" \/ sd = "right") /\
    (is_number dx /\ is_number dy /\ is_number dz /\ is_number yo /\ is_number sp /\ is_number sw /\
     is_number di /\ is_number mo /\ is_number wa /\ is_number rc /\ is_number tc /\ is_count gr).
  Proof.
    unfold make_wing. split.
    - intros [w H]. split.
      + destruct (String.eqb_spec sd "both"); auto. destruct (String.eqb_spec sd "right"); auto.
        destruct (String.eqb_spec sd "left"); auto. discriminate.
      + destruct (String.eqb sd "both"); [|destruct (String.eqb sd "right"); [|destruct (String.eqb sd "left"); [|discriminate]]];
        inv; eapply make_segment_dims; eexists; eassumption.
    - intros [Hsd Hd].
      assert (Hs : forall n side, exists s, make_segment n side (dims_of dx dy dz im yo sp sw di mo wa rc tc gr) = Ok s)
        by (intros; now apply make_segment_dims).
      destruct (Hs ("left_" ++ n)%string SLeft) as [l Hl]. destruct (Hs ("right_" ++ n)%string SRight) as [r Hr].
      destruct Hsd as [-> |[-> | ->]]; simpl String.eqb; cbn iota; rewrite ?Hl, ?Hr; cbn [rbind]; eauto.
  Qed.

  Lemma copy_mix_iff keys : forall d : dict pyval,
    (exists m, copy_mix keys d = Ok m) <-> (forall k x, In k keys -> dget d k = Some x -> is_number x).
  Proof.
    induction keys as [|k ks IH]; simpl; intros d; split.
    - intros _ k x [].
    - eauto.
    - intros [m H] k' x [<-|Hk] Hx.
      + rewrite Hx in H. inv. eapply pnum_ok; eauto.
      + destruct (dget d k); inv; eapply IH; eauto.
    - intros H. destruct (proj2 (IH d)) as [m Hm]; [eauto|]. destruct (dget d k) as [v|] eqn:E; [|eauto].
      destruct (pnum_is v) as [y ->]; [eapply H; eauto|]. simpl. rewrite Hm. simpl. eauto.
  Qed.

  Lemma make_cs_file s0 s1 c0 c1 mx se :
    (exists c, make_cs [("percent_span", VList [s0; s1]); ("percent_chord", VList [c0; c1]); ("mix", mx); ("sealed", se)] = Ok c) <->
    is_number s0 /\ is_number s1 /\ is_number c0 /\ is_number c1 /\ good_mix mx.
  Proof.
    unfold make_cs, dlookup. cbn [dtruthy].
    change (dget _ "percent_span") with (Some (VList [s0; s1])).
    change (dget _ "percent_chord") with (Some (VList [c0; c1])).
    change (dget _ "mix") with (Some mx).
    unfold pidxn. cbn [pidx nth_error rbind]. unfold good_mix, is_dict.
    split.
    - intros [c H]. inv. destruct mx; try discriminate. simpl in E2. inversion E2; subst.
      repeat match goal with H : pnum _ = Ok _ |- _ => apply pnum_ok in H end.
      repeat (split; auto).
      + eauto.
      + simpl. apply (proj1 (copy_mix_iff mix_keys x2)). eauto.
    - intros H. destruct H as [H1 [H2 [H3 [H4 [[d ->] H5]]]]].
      destruct (pnum_is _ H1) as [y1 ->]. destruct (pnum_is _ H2) as [y2 ->]. cbn [rbind].
      destruct (pnum_is _ H3) as [y3 ->]. destruct (pnum_is _ H4) as [y4 ->]. cbn [rbind pdict].
      destruct (proj2 (copy_mix_iff mix_keys d)) as [m ->]; [exact H5|]. cbn [rbind]. eauto.
  Qed.

  (** *** One wing *)
  Lemma wing_dims_ok (v : pyval) sd dims : wing_dims v = Ok (sd, dims) ->
    field v "side" = Some (VStr sd) /\
    (let c := at_ v "connect" in
     dims = dims_of (at_ c "dx") (at_ c "dy") (at_ c "dz") (at_ v "is_main") (at_ c "yoffset") (at_ v "span")
              (at_ v "sweep") (at_ v "dihedral") (at_ v "mounting_angle") (at_ v "washout") (at_ v "root_chord")
              (at_ v "tip_chord") (at_ v "grid") /\
     field v "connect" = Some c /\
     (forall k, In k ["dx"; "dy"; "dz"; "yoffset"] -> field c k = Some (at_ c k)) /\
     (forall k, In k ["is_main"; "span"; "sweep"; "dihedral"; "mounting_angle"; "washout"; "root_chord"; "tip_chord"; "grid"] ->
        field v k = Some (at_ v k))).
  Proof.
    unfold wing_dims. intros H. inv. inversion H; subst; clear H.
    apply pgets_ok in E.
    repeat match goal with H : pget ?v ?k = Ok ?x |- _ =>
      let Hx := fresh in pose proof (pget_at _ _ _ H) as Hx; apply pget_ok in H; subst x end.
    split; auto. cbv zeta. split; [reflexivity|]. split; auto.
    split; intros k Hk; simpl in Hk; repeat (destruct Hk as [<-|Hk]; [assumption|]); contradiction.
  Qed.
  Lemma wing_dims_is (v : pyval) s c : field v "side" = Some (VStr s) -> field v "connect" = Some c ->
    (forall k, In k ["dx"; "dy"; "dz"; "yoffset"] -> exists x, field c k = Some x) ->
    (forall k, In k ["is_main"; "span"; "sweep"; "dihedral"; "mounting_angle"; "washout"; "root_chord"; "tip_chord"; "grid"] ->
        exists x, field v k = Some x) ->
    wing_dims v = Ok (s, dims_of (at_ c "dx") (at_ c "dy") (at_ c "dz") (at_ v "is_main") (at_ c "yoffset") (at_ v "span")
              (at_ v "sweep") (at_ v "dihedral") (at_ v "mounting_angle") (at_ v "washout") (at_ v "root_chord")
              (at_ v "tip_chord") (at_ v "grid")).
  Proof.
    intros Hs Hc H1 H2. unfold wing_dims.
    rewrite (proj2 (pgets_ok v "side" s) Hs), (proj2 (pget_ok v "connect" c) Hc). cbn [rbind].
    assert (G1 : forall k, In k ["dx"; "dy"; "dz"; "yoffset"] -> pget c k = Ok (at_ c k)).
    { intros k Hk. destruct (H1 k Hk) as [x Hx]. rewrite (at_field _ _ _ Hx). now apply pget_ok. }
    assert (G2 : forall k, In k ["is_main"; "span"; "sweep"; "dihedral"; "mounting_angle"; "washout"; "root_chord"; "tip_chord"; "grid"] ->
              pget v k = Ok (at_ v k)).
    { intros k Hk. destruct (H2 k Hk) as [x Hx]. rewrite (at_field _ _ _ Hx). now apply pget_ok. }
    rewrite !G1 by (simpl; tauto). cbn [rbind]. rewrite !G2 by (simpl; tauto). reflexivity.
  Qed.

  (** *** API calls that succeed *)
  Lemma add_wing_inv n conn sd dims (pl : airplane T) id pl' :
    add_wing n conn sd dims pl = (Ok id, pl') ->
    id = List.length (a_store pl) /\ List.length (a_store pl') = S (List.length (a_store pl)) /\
    a_wings pl' = dset (a_wings pl) n id /\ (exists w, make_wing n sd dims = Ok w).
  Proof.
    unfold add_wing. destruct (make_wing n sd dims) as [w|]; [|discriminate].
    destruct (fst conn) as [pn|]; [destruct (String.eqb pn ""); [|destruct (dlookup _ pn); [|discriminate]]|];
    simpl; intros H; inversion H; subst; simpl; rewrite app_length; simpl; repeat split; eauto; lia.
  Qed.
  Lemma add_wing_succeeds n conn sd dims (pl : airplane T) w :
    make_wing n sd dims = Ok w ->
    (forall pn, fst conn = Some pn -> pn = "" \/ pn = n \/ dget (a_wings pl) pn <> None) ->
    exists pl', add_wing n conn sd dims pl = (Ok (List.length (a_store pl)), pl').
  Proof.
    intros Hw Hp. unfold add_wing. rewrite Hw. destruct (fst conn) as [pn|]; [|eexists; reflexivity].
    destruct (String.eqb_spec pn ""); [eexists; reflexivity|].
    unfold dlookup. rewrite dget_dset. destruct (Hp pn eq_refl) as [H|[->|H]]; [contradiction| |].
    - rewrite String.eqb_refl. eexists; reflexivity.
    - destruct (String.eqb n pn); [eexists; reflexivity|]. destruct (dget (a_wings pl) pn); [|contradiction].
      eexists; reflexivity.
  Qed.
  Lemma wing_airfoil_inv id n e p (pl : airplane T) a pl' :
    wing_airfoil id n e p pl = (Ok a, pl') ->
    List.length (a_store pl') = List.length (a_store pl) /\ a_wings pl' = a_wings pl /\ make_airfoil n p = Ok a.
  Proof.
    unfold wing_airfoil. destruct (nth_error _ _); [|discriminate]. destruct (make_airfoil n p); [|discriminate].
    intros H; inversion H; subst; simpl. rewrite set_nth_length. auto.
  Qed.
  Lemma wing_airfoil_succeeds id n e p (pl : airplane T) a :
    id < List.length (a_store pl) -> make_airfoil n p = Ok a -> exists pl', wing_airfoil id n e p pl = (Ok a, pl').
  Proof.
    intros H Ha. unfold wing_airfoil. destruct (nth_error (a_store pl) id) eqn:E.
    - rewrite Ha. eexists; reflexivity.
    - apply nth_error_None in E. lia.
  Qed.
  Lemma wing_control_inv id p (pl : airplane T) a pl' :
    wing_control_surface id p pl = (Ok a, pl') ->
    List.length (a_store pl') = List.length (a_store pl) /\ a_wings pl' = a_wings pl /\ make_cs p = Ok a.
  Proof.
    unfold wing_control_surface. destruct (nth_error _ _); [|discriminate]. destruct (make_cs p); [|discriminate].
    intros H; inversion H; subst; simpl. rewrite set_nth_length. auto.
  Qed.
  Lemma wing_control_succeeds id p (pl : airplane T) a :
    id < List.length (a_store pl) -> make_cs p = Ok a -> exists pl', wing_control_surface id p pl = (Ok a, pl').
  Proof.
    intros H Ha. unfold wing_control_surface. destruct (nth_error (a_store pl) id) eqn:E.
    - rewrite Ha. eexists; reflexivity.
    - apply nth_error_None in E. lia.
  Qed.

  (** the airfoil part of _add_wing_from_inputfile *)
  Definition file_airfoils (w : nat) (afs : dict pyval) : st (airplane T) unit :=
    match afs with
    | (n_root, v_root) :: (n_tip, v_tip) :: _ =>
        root <- slift (pget v_root "properties") ;;
        tip <- slift (pget v_tip "properties") ;;
        rk <- slift (copy_keys airfoil_keys root) ;;
        wing_airfoil w n_root "root" rk ;;;
        tk <- slift (copy_keys airfoil_keys tip) ;;
        wing_airfoil w n_tip "tip" tk ;;;
        sret tt
    | [(n_root, v_root)] =>
        root <- slift (pget v_root "properties") ;;
        rk <- slift (copy_keys airfoil_keys root) ;;
        wing_airfoil w n_root "both" rk ;;;
        sret tt
    | [] => sraise IndexError
    end.
  Lemma file_airfoils_ok w afs (pl pl' : airplane T) : file_airfoils w afs pl = (Ok tt, pl') ->
    good_airfoils (VDict afs) /\ pl' = run_calls (airfoil_calls w (VDict afs)) pl /\
    List.length (a_store pl') = List.length (a_store pl) /\ a_wings pl' = a_wings pl.
  Proof.
    unfold file_airfoils, good_airfoils, airfoil_calls, entries.
    destruct afs as [|[n a] [|[m b] r]]; intros H; inv.
    - destruct (airfoil_entry_ok _ _ _ E E0) as [-> Hg].
      destruct (wing_airfoil_inv _ _ _ _ _ _ _ E1) as [H1 [H2 H3]].
      split; [|split; [|split]]; auto.
      + exists n, a, []. split; auto. split; auto. apply (Hg [] n); simpl; eauto.
      + simpl. now rewrite E1.
    - destruct (airfoil_entry_ok _ _ _ E E1) as [-> Hg].
      destruct (airfoil_entry_ok _ _ _ E0 E3) as [-> Hg'].
      destruct (wing_airfoil_inv _ _ _ _ _ _ _ E2) as [H1 [H2 H3]].
      destruct (wing_airfoil_inv _ _ _ _ _ _ _ E4) as [H1' [H2' H3']].
      split; [|split; [|split]]; try congruence.
      + exists n, a, ((m, b) :: r). split; auto. split; [apply (Hg [] n)|apply (Hg' [] m)]; simpl; eauto.
      + simpl. rewrite E2. simpl. now rewrite E4.
  Qed.
  Lemma good_make_airfoil (v : pyval) pre n : good_airfoil v ->
    (pre = [] \/ exists s, pre = [("span_position", s)]) ->
    exists a, make_airfoil n (pre ++ airfoil_args v) = Ok a.
  Proof.
    intros Hg Hpre. destruct (good_airfoil_reads _ Hg) as [H1 H2].
    destruct (airfoil_entry_ok _ _ _ H1 H2) as [_ H]. now apply H.
  Qed.
  Lemma file_airfoils_succeeds w afs (pl : airplane T) :
    w < List.length (a_store pl) -> good_airfoils (VDict afs) -> exists pl', file_airfoils w afs pl = (Ok tt, pl').
  Proof.
    intros Hw [n [a [r [E [Ha Hr]]]]]. inversion E; subst; clear E. unfold file_airfoils.
    destruct (good_airfoil_reads _ Ha) as [H1 H2].
    destruct (good_make_airfoil _ [] n Ha (or_introl eq_refl)) as [fa Hfa]. simpl in Hfa.
    destruct r as [|[m b] r].
    - destruct (wing_airfoil_succeeds w n "both" (airfoil_args a) pl fa Hw Hfa) as [pl1 E1].
      exists pl1. apply slift_bind. exists (at_ a "properties"). split; auto.
      apply slift_bind. eexists; split; [eassumption|]. apply sbind_ok. eexists _, _. split; [eassumption|reflexivity].
    - destruct (good_airfoil_reads _ Hr) as [H1' H2'].
      destruct (good_make_airfoil _ [] m Hr (or_introl eq_refl)) as [fb Hfb]. simpl in Hfb.
      destruct (wing_airfoil_succeeds w n "root" (airfoil_args a) pl fa Hw Hfa) as [pl1 E1].
      pose proof (wing_airfoil_inv _ _ _ _ _ _ _ E1) as [Hl _].
      destruct (wing_airfoil_succeeds w m "tip" (airfoil_args b) pl1 fb ltac:(lia) Hfb) as [pl2 E2].
      exists pl2. apply slift_bind. exists (at_ a "properties"). split; auto.
      apply slift_bind. exists (at_ b "properties"). split; auto.
      apply slift_bind. eexists; split; [eassumption|]. apply sbind_ok. eexists _, _. split; [eassumption|].
      apply slift_bind. eexists; split; [eassumption|]. apply sbind_ok. eexists _, _. split; [eassumption|reflexivity].
  Qed.

  (** the control-surface part *)
  Definition file_control (w : nat) (ctl : pyval) : st (airplane T) unit :=
    if ptruthy ctl then
      s0 <- slift (pget ctl "span_root") ;;
      s1 <- slift (pget ctl "span_tip") ;;
      c0 <- slift (pget ctl "chord_root") ;;
      c1 <- slift (pget ctl "chord_tip") ;;
      mx <- slift (pget ctl "mix") ;;
      se <- slift (pget ctl "is_sealed") ;;
      wing_control_surface w [("percent_span", VList [s0; s1]);
                              ("percent_chord", VList [c0; c1]);
                              ("mix", mx); ("sealed", se)] ;;;
      sret tt
    else sret tt.
  Lemma file_control_ok w ctl (pl pl' : airplane T) : file_control w ctl pl = (Ok tt, pl') ->
    good_control ctl /\ pl' = run_calls (control_calls w ctl) pl /\
    List.length (a_store pl') = List.length (a_store pl) /\ a_wings pl' = a_wings pl.
  Proof.
    unfold file_control, good_control, control_calls. destruct (ptruthy ctl); intros H; inv.
    - destruct (wing_control_inv _ _ _ _ _ E5) as [H1 [H2 H3]].
      destruct (proj1 (make_cs_file x x0 x1 x2 x3 x4) (ex_intro _ _ H3)) as [G1 [G2 [G3 [G4 G5]]]].
      repeat match goal with H : pget ?v ?k = Ok ?x |- _ =>
        let Hx := fresh in pose proof (pget_at _ _ _ H) as Hx; apply pget_ok in H; subst x end.
      split; [|split; [|split]]; auto.
      + right. unfold with_key. repeat split; eexists; split; eauto. exact I.
      + simpl. now rewrite E5.
    - repeat split; auto.
  Qed.
  Lemma file_control_succeeds w ctl (pl : airplane T) :
    w < List.length (a_store pl) -> good_control ctl -> exists pl', file_control w ctl pl = (Ok tt, pl').
  Proof.
    intros Hw Hg. unfold file_control. destruct Hg as [->|Hg]; [eexists; reflexivity|].
    destruct (ptruthy ctl); [|eexists; reflexivity].
    destruct Hg as [[x0 [E0 G0]] [[x1 [E1 G1]] [[x2 [E2 G2]] [[x3 [E3 G3]] [[x4 [E4 G4]] [x5 [E5 _]]]]]]].
    destruct (proj2 (make_cs_file x0 x1 x2 x3 x4 x5)) as [c Hc]; [tauto|].
    destruct (wing_control_succeeds w _ pl c Hw Hc) as [pl1 Hpl].
    exists pl1.
    repeat (apply slift_bind; eexists; split; [apply pget_ok; eassumption|]).
    apply sbind_ok. eexists _, _. split; [eassumption|reflexivity].
  Qed.

  (** *** One wing of a file *)
  Definition wing_calls_at (id : nat) (conn : option string * string) (n : string) (v : pyval) : list (api_call T) :=
    let c := at_ v "connect" in
    CAddWing n conn (str_of (at_ v "side"))
      (dims_of (at_ c "dx") (at_ c "dy") (at_ c "dz") (at_ v "is_main") (at_ c "yoffset") (at_ v "span")
              (at_ v "sweep") (at_ v "dihedral") (at_ v "mounting_angle") (at_ v "washout") (at_ v "root_chord")
              (at_ v "tip_chord") (at_ v "grid"))
    :: airfoil_calls id (at_ v "airfoils") ++ control_calls id (at_ v "control").

  Lemma run_calls_app cs cs' : forall pl : airplane T, run_calls (cs ++ cs') pl = run_calls cs' (run_calls cs pl).
  Proof. induction cs; simpl; auto. Qed.

  Lemma run_calls_cons c cs (pl : airplane T) : run_calls (c :: cs) pl = run_calls cs (run_call c pl).
  Proof. reflexivity. Qed.

  Lemma add_wing_file_ok conns n v (pl pl' : airplane T) : add_wing_from_file conns n v pl = (Ok tt, pl') ->
    exists conn, dget conns n = Some conn /\ good_wing v /\
      pl' = run_calls (wing_calls_at (List.length (a_store pl)) conn n v) pl /\
      List.length (a_store pl') = S (List.length (a_store pl)) /\
      a_wings pl' = dset (a_wings pl) n (List.length (a_store pl)).
  Proof.
    unfold add_wing_from_file. intros H. inv.
    change (file_airfoils x1 x3 s = (Ok x4, s0)) in E4.
    apply sbind_ok in E4 || idtac.
    inv. destruct x0 as [sd dims]. cbn [fst snd] in *.
    destruct x4.
    apply wing_dims_ok in E0. cbv zeta in E0. destruct E0 as [Hside [Hdims [Hcon [Hc Hv]]]].
    subst dims. destruct (add_wing_inv _ _ _ _ _ _ _ E1) as [Hid [Hlen [Hnames Hw]]].
    apply make_wing_file in Hw. destruct Hw as [Hsd Hnum].
    destruct (file_airfoils_ok _ _ _ _ E4) as [Haf [Hpl1 [Hl1 Hn1]]].
    change (file_control x1 x5 s0 = (Ok tt, pl')) in H.
    destruct (file_control_ok _ _ _ _ H) as [Hct [Hpl2 [Hl2 Hn2]]].
    destruct x2; try discriminate. simpl in E3. inversion E3; subst d; clear E3.
    pose proof (pget_at _ _ _ E2) as Ea. pose proof (pget_at _ _ _ E5) as Ec.
    apply pget_ok in E2, E5.
    exists x. split; [unfold dlookup in E; destruct (dget conns n); inversion E; auto|].
    split; [|split; [|split]]; try congruence.
    - unfold good_wing, with_key.
      split. { exists (VStr sd). split; auto. destruct Hsd as [-> |[-> | ->]]; auto. }
      split. { exists (at_ v "connect"). split; auto.
               split; [exists (at_ (at_ v "connect") "dx"); split; [apply Hc; simpl; tauto|tauto]|].
               split; [exists (at_ (at_ v "connect") "dy"); split; [apply Hc; simpl; tauto|tauto]|].
               split; [exists (at_ (at_ v "connect") "dz"); split; [apply Hc; simpl; tauto|tauto]|].
               exists (at_ (at_ v "connect") "yoffset"); split; [apply Hc; simpl; tauto|tauto]. }
      split. { exists (at_ v "is_main"). split; [apply Hv; simpl; tauto|exact I]. }
      split. { exists (at_ v "span"). split; [apply Hv; simpl; tauto|tauto]. }
      split. { exists (at_ v "sweep"). split; [apply Hv; simpl; tauto|tauto]. }
      split. { exists (at_ v "dihedral"). split; [apply Hv; simpl; tauto|tauto]. }
      split. { exists (at_ v "mounting_angle"). split; [apply Hv; simpl; tauto|tauto]. }
      split. { exists (at_ v "washout"). split; [apply Hv; simpl; tauto|tauto]. }
      split. { exists (at_ v "root_chord"). split; [apply Hv; simpl; tauto|tauto]. }
      split. { exists (at_ v "tip_chord"). split; [apply Hv; simpl; tauto|tauto]. }
      split. { exists (at_ v "grid"). split; [apply Hv; simpl; tauto|tauto]. }
      split; eauto.
    - unfold wing_calls_at. rewrite (at_field _ _ _ Hside). cbn [str_of]. cbv zeta.
      rewrite run_calls_cons. unfold run_call at 1.
      rewrite E1. cbn [snd]. rewrite run_calls_app, <- Hid, <- Ea, <- Ec, <- Hpl1. exact Hpl2.
  Qed.

  Lemma add_wing_file_succeeds conns n v (pl : airplane T) conn :
    dget conns n = Some conn -> good_wing v ->
    (forall pn, fst conn = Some pn -> pn = "" \/ pn = n \/ dget (a_wings pl) pn <> None) ->
    exists pl', add_wing_from_file conns n v pl = (Ok tt, pl').
  Proof.
    intros Hconn Hg Hp. unfold good_wing, with_key in Hg.
    destruct Hg as [[sd [Hs1 Hs2]] [[c [Hc1 Hc2]] [[im [Him _]] [[sp [Hsp1 Hsp2]] [[sw [Hsw1 Hsw2]] [[di [Hdi1 Hdi2]] [[mo [Hmo1 Hmo2]] [[wa [Hwa1 Hwa2]] [[rc [Hrc1 Hrc2]] [[tc [Htc1 Htc2]] [[gr [Hgr1 Hgr2]] [[af [Haf1 Haf2]] [ct [Hct1 Hct2]]]]]]]]]]]]]].
    destruct Hc2 as [[dx [Hx1 Hx2]] [[dy [Hy1 Hy2]] [[dz [Hz1 Hz2]] [yo [Ho1 Ho2]]]]].
    assert (Hsd : exists s, sd = VStr s /\ (s = "both" \/ s = "left" \/ s = "right")).
    { destruct Hs2 as [-> |[-> | ->]]; eexists; split; eauto. }
    destruct Hsd as [s [-> Hsd]].
    assert (Hdims := wing_dims_is v s c Hs1 Hc1).
    specialize (Hdims ltac:(intros k Hk; simpl in Hk; repeat (destruct Hk as [<-|Hk]; [eauto|]); contradiction)).
    specialize (Hdims ltac:(intros k Hk; simpl in Hk; repeat (destruct Hk as [<-|Hk]; [eauto|]); contradiction)).
    rewrite (at_field _ _ _ Hx1), (at_field _ _ _ Hy1), (at_field _ _ _ Hz1), (at_field _ _ _ Ho1),
      (at_field _ _ _ Him), (at_field _ _ _ Hsp1), (at_field _ _ _ Hsw1), (at_field _ _ _ Hdi1), (at_field _ _ _ Hmo1),
      (at_field _ _ _ Hwa1), (at_field _ _ _ Hrc1), (at_field _ _ _ Htc1), (at_field _ _ _ Hgr1) in Hdims.
    destruct (proj2 (make_wing_file n s dx dy dz im yo sp sw di mo wa rc tc gr)) as [w Hw]; [tauto|].
    destruct (add_wing_succeeds n conn s _ pl w Hw Hp) as [pl1 E1].
    pose proof (add_wing_inv _ _ _ _ _ _ _ E1) as [_ [Hl1 _]].
    destruct Haf2 as [an [a [r [-> Ha]]]].
    destruct (file_airfoils_succeeds (List.length (a_store pl)) ((an, a) :: r) pl1 ltac:(lia)) as [pl2 E2].
    { exists an, a, r. split; auto. }
    pose proof (file_airfoils_ok _ _ _ _ E2) as [_ [_ [Hl2 _]]].
    destruct (file_control_succeeds (List.length (a_store pl)) ct pl2 ltac:(lia) Hct2) as [pl3 E3].
    exists pl3. unfold add_wing_from_file.
    apply slift_bind. exists conn. split; [unfold dlookup; now rewrite Hconn|].
    apply slift_bind. eexists. split; [exact Hdims|].
    apply sbind_ok. eexists _, _. split; [exact E1|].
    apply slift_bind. eexists. split; [apply pget_ok; exact Haf1|].
    apply slift_bind. eexists. split; [reflexivity|].
    apply sbind_ok. exists tt, pl2. split; [exact E2|].
    apply slift_bind. eexists. split; [apply pget_ok; exact Hct1|]. exact E3.
  Qed.

  (** *** Parents *)
  Definition ids_of (before : dict pyval) : list (pyval * string) :=
    map (fun e => (at_ (snd e) "ID", fst e)) (rev before).
  Definition all_id (before : dict pyval) : Prop :=
    forall e, In e before -> exists x, field (snd e) "ID" = Some x.

  Lemma id_lookup_parent before x : all_id before -> id_lookup (ids_of before) x = parent_name before x.
  Proof.
    unfold all_id, ids_of, parent_name. intros H.
    assert (H' : forall e, In e (rev before) -> exists y, field (snd e) "ID" = Some y)
      by (intros e He; apply H; now apply in_rev).
    clear H. revert H'. induction (rev before) as [|[n v] r IH]; intros H; simpl; auto.
    destruct (H (n, v) (or_introl eq_refl)) as [y Hy]. simpl in Hy. rewrite (at_field _ _ _ Hy).
    unfold has_id at 1. simpl. rewrite Hy. destruct (pid_eqb x y); simpl; auto.
    apply IH. intros e He. apply H. now right.
  Qed.
  Lemma ids_snoc before n v : ids_of (before ++ [(n, v)]) = (at_ v "ID", n) :: ids_of before.
  Proof. unfold ids_of. rewrite rev_app_distr. reflexivity. Qed.
  Lemma all_id_snoc before n v x : all_id before -> field v "ID" = Some x -> all_id (before ++ [(n, v)]).
  Proof. intros H Hx e He. apply in_app_or in He. destruct He as [He|[<-|[]]]; eauto. Qed.

  Lemma map_connections_ok ws : forall before c c', all_id before ->
    map_connections ws (ids_of before) c = Ok c' ->
    (forall pre n v post, ws = pre ++ (n, v) :: post -> good_parent (before ++ pre ++ [(n, v)]) v) /\
    (NoDup (map fst ws) -> forall pre n v post, ws = pre ++ (n, v) :: post ->
       dget c' n = Some (connect_arg (before ++ pre ++ [(n, v)]) v)) /\
    (forall k, ~ In k (map fst ws) -> dget c' k = dget c k).
  Proof.
    induction ws as [|[n v] ws IH]; intros before c c' Hid H.
    - simpl in H. inversion H; subst. repeat split; auto; intros; destruct pre; discriminate.
    - cbn [map_connections] in H. inv. destruct (hashable x) eqn:Hh; cbn [negb] in H; [|discriminate]. inv.
      pose proof (pget_at _ _ _ E) as Ex. apply pget_ok in E. subst x.
      rewrite <- ids_snoc in H.
      assert (Hid' : all_id (before ++ [(n, v)])) by (eapply all_id_snoc; eauto).
      pose proof (pget_at _ _ _ E0) as Ex0. apply pget_ok in E0. subst x0.
      pose proof (pget_at _ _ _ E1) as Ex1. apply pget_ok in E1. subst x1.
      set (cid := at_ (at_ v "connect") "ID") in *.
      (* both branches: this wing is good and its entry is connect_arg *)
      assert (Hmain : good_parent (before ++ [(n, v)]) v /\
                map_connections ws (ids_of (before ++ [(n, v)])) (dset c n (connect_arg (before ++ [(n, v)]) v)) = Ok c').
      { unfold good_parent, connect_arg, with_key. fold cid.
        destruct (peq_int cid 0) eqn:Ez.
        - split; auto. split; [exists (at_ v "ID"); auto|].
          exists (at_ v "connect"). split; auto. exists cid. auto.
        - destruct (hashable cid) eqn:Hc; cbn [negb] in H; [|discriminate].
          rewrite id_lookup_parent in H by auto.
          destruct (parent_name (before ++ [(n, v)]) cid) as [pn|] eqn:Ep; [|discriminate].
          inv. apply pgets_ok in E2. split; [|rewrite (at_field _ _ _ E2); exact H].
          split; [exists (at_ v "ID"); auto|].
          exists (at_ v "connect"). split; auto. exists cid. split; auto. right. repeat split; auto; [congruence|].
          exists (VStr x). split; auto. now exists x. }
      clear H. destruct Hmain as [Hg H].
      destruct (IH _ _ _ Hid' H) as [IH1 [IH2 IH3]].
      split; [|split].
      + intros [|e pre] m u post Eq; inversion Eq; subst.
        * exact Hg.
        * specialize (IH1 pre m u post eq_refl). rewrite <- app_assoc in IH1. exact IH1.
      + intros Hnd [|e pre] m u post Eq; inversion Eq; subst; simpl in Hnd; inversion Hnd; subst.
        * rewrite IH3 by auto. apply dget_dset_same.
        * rewrite (IH2 ltac:(assumption) pre m u post eq_refl), <- app_assoc. reflexivity.
      + intros k Hk. simpl in Hk. rewrite IH3 by tauto. apply dget_dset_other. intros ->. tauto.
  Qed.

  Lemma map_connections_succeeds ws : forall before c, all_id before ->
    (forall pre n v post, ws = pre ++ (n, v) :: post -> good_parent (before ++ pre ++ [(n, v)]) v) ->
    exists c', map_connections ws (ids_of before) c = Ok c'.
  Proof.
    induction ws as [|[n v] ws IH]; intros before c Hid Hg; [eexists; reflexivity|].
    destruct (Hg [] n v ws eq_refl) as [[i [Hi Hh]] [cn [Hcn [x [Hx Hp]]]]]. simpl in Hp.
    cbn [map_connections]. rewrite (proj2 (pget_ok v "ID" i) Hi). cbn [rbind]. rewrite Hh. cbn [negb].
    rewrite (proj2 (pget_ok v "connect" cn) Hcn). cbn [rbind].
    rewrite (proj2 (pget_ok cn "ID" x) Hx). cbn [rbind].
    replace ((i, n) :: ids_of before) with (ids_of (before ++ [(n, v)])) by (rewrite ids_snoc, (at_field _ _ _ Hi); reflexivity).
    assert (Hid' : all_id (before ++ [(n, v)])) by (eapply all_id_snoc; eauto).
    assert (Hg' : forall pre n0 v0 post, ws = pre ++ (n0, v0) :: post ->
              good_parent ((before ++ [(n, v)]) ++ pre ++ [(n0, v0)]) v0).
    { intros pre m u post ->. rewrite <- app_assoc. apply (Hg ((n, v) :: pre) m u post). reflexivity. }
    destruct (peq_int x 0) eqn:Ez; [apply IH; auto|].
    destruct Hp as [Hp|[Hh' [Hp [l [Hl [ls ->]]]]]]; [congruence|].
    rewrite Hh'. cbn [negb]. rewrite id_lookup_parent by auto.
    destruct (parent_name (before ++ [(n, v)]) x) as [pn|]; [|contradiction].
    rewrite (proj2 (pgets_ok cn "location" ls) Hl). cbn [rbind]. apply IH; auto.
  Qed.

  Lemma parent_name_in before x pn : parent_name before x = Some pn -> In pn (map fst before).
  Proof.
    unfold parent_name. destruct (find (has_id x) (rev before)) as [e|] eqn:E; simpl; [|discriminate].
    intros H; inversion H; subst. apply find_some in E. apply in_map. now apply in_rev.
  Qed.

  (** *** All wings *)
  Lemma all_wings_ok conns ws : forall before (pl pl' : airplane T),
    List.length (a_store pl) = List.length before ->
    (forall pre n v post, ws = pre ++ (n, v) :: post ->
       dget conns n = Some (connect_arg (before ++ pre ++ [(n, v)]) v)) ->
    siter (fun e => add_wing_from_file conns (fst e) (snd e)) ws pl = (Ok tt, pl') ->
    (forall n v, In (n, v) ws -> good_wing v) /\
    pl' = run_calls (wings_calls before ws) pl.
  Proof.
    induction ws as [|[n v] ws IH]; intros before pl pl' Hlen Hc H; cbn [siter] in H.
    - inversion H; subst. split; auto. contradiction.
    - inv. cbn [fst snd] in E. destruct x.
      destruct (add_wing_file_ok _ _ _ _ _ E) as [conn [H1 [H2 [H3 [H4 _]]]]].
      rewrite (Hc [] n v ws eq_refl) in H1. inversion H1; subst conn; clear H1.
      destruct (IH (before ++ [(n, v)]) s pl') as [IH1 IH2]; auto.
      + rewrite app_length. simpl. lia.
      + intros pre m u post ->. rewrite <- app_assoc. apply (Hc ((n, v) :: pre) m u post). reflexivity.
      + split.
        * intros m u [Eq|Hin]; [inversion Eq; subst; auto|eauto].
        * cbn [wings_calls]. rewrite run_calls_app.
          change (wing_calls before n v) with (wing_calls_at (List.length before) (connect_arg (before ++ [(n, v)]) v) n v).
          rewrite <- Hlen. simpl app in H3. rewrite <- H3. exact IH2.
  Qed.

  Lemma all_wings_succeed conns ws : forall before (pl : airplane T),
    (forall n, In n (map fst before) -> dget (a_wings pl) n <> None) ->
    (forall pre n v post, ws = pre ++ (n, v) :: post ->
       dget conns n = Some (connect_arg (before ++ pre ++ [(n, v)]) v)) ->
    (forall n v, In (n, v) ws -> good_wing v) ->
    exists pl', siter (fun e => add_wing_from_file conns (fst e) (snd e)) ws pl = (Ok tt, pl').
  Proof.
    induction ws as [|[n v] ws IH]; intros before pl Hn Hc Hg; [eexists; reflexivity|].
    destruct (add_wing_file_succeeds conns n v pl _ (Hc [] n v ws eq_refl)) as [pl1 E1].
    - apply (Hg n v). now left.
    - intros pn. unfold connect_arg. simpl app. destruct (peq_int _ 0); simpl; [discriminate|].
      intros Hp. apply parent_name_in in Hp. rewrite map_app in Hp. apply in_app_or in Hp.
      destruct Hp as [Hp|[Hp|[]]]; [right; right; auto|right; left; auto].
    - destruct (add_wing_file_ok _ _ _ _ _ E1) as [conn [_ [_ [_ [_ Hnames]]]]].
      destruct (IH (before ++ [(n, v)]) pl1) as [pl2 E2].
      + intros k Hk. rewrite Hnames, dget_dset. destruct (String.eqb_spec n k); [discriminate|].
        rewrite map_app in Hk. apply in_app_or in Hk. destruct Hk as [Hk|[Hk|[]]]; [auto|simpl in Hk; congruence].
      + intros pre m u post ->. rewrite <- app_assoc. apply (Hc ((n, v) :: pre) m u post). reflexivity.
      + intros m u Hin. apply (Hg m u). now right.
      + exists pl2. cbn [siter]. apply sbind_ok. exists tt, pl1. split; auto.
  Qed.

  (** *** Propellers *)
  Definition prop_args (dx dy dz el he no di hu bl ro pi ch mo af : pyval) : dict pyval :=
    [("position", VList [dx; dy; dz]); ("orientation", VList [el; he]); ("nodes", no);
     ("diameter", di); ("hub_diameter", hu); ("num_of_blades", bl); ("rot_dir", ro);
     ("pitch_info", pi); ("chord_info", ch); ("electric_motor", mo); ("airfoils", af)].
  Lemma make_prop_file n dx dy dz el he no di hu bl ro pi ch mo af :
    (exists p, make_prop n (prop_args dx dy dz el he no di hu bl ro pi ch mo af) = Ok p) <->
    is_number dx /\ is_number dy /\ is_number dz /\ is_number el /\ is_number he /\ is_count no /\
    is_number di /\ is_number hu /\ is_count bl /\ is_dict pi /\ is_dict ch /\ is_dict mo.
  Proof.
    unfold make_prop, prop_args.
    change (dgetd _ "position" _) with (VList [dx; dy; dz]).
    change (dgetd _ "orientation" _) with (VList [el; he]).
    change (dgetd _ "nodes" _) with no.
    change (dgetd _ "diameter" _) with di.
    change (dgetd _ "num_of_blades" _) with bl.
    change (dgetd _ "pitch_info" _) with pi.
    change (dgetd _ "chord_info" _) with ch.
    change (dgetd _ "electric_motor" _) with mo.
    assert (Ehu : forall d, dgetd [("position", VList [dx; dy; dz]); ("orientation", VList [el; he]); ("nodes", no);
     ("diameter", di); ("hub_diameter", hu); ("num_of_blades", bl); ("rot_dir", ro);
     ("pitch_info", pi); ("chord_info", ch); ("electric_motor", mo); ("airfoils", af)] "hub_diameter" d = hu) by reflexivity.
    assert (Hd : forall (v : pyval) d, pdict v = Ok d -> is_dict v).
    { intros v d. unfold is_dict. destruct v; simpl; try discriminate. eauto. }
    unfold pvec3, pidxn. cbn [pidx nth_error rbind].
    split.
    - intros [s H]. inv. rewrite Ehu in *.
      repeat match goal with H : pnum _ = Ok _ |- _ => apply pnum_ok in H | H : pnat _ = Ok _ |- _ => apply pnat_ok in H
             | H : pdict _ = Ok _ |- _ => apply Hd in H end.
      tauto.
    - intros H. destruct H as [H1 [H2 [H3 [H4 [H5 [H6 [H7 [H8 [H9 [[d1 ->] [[d2 ->] [d3 ->]]]]]]]]]]]].
      destruct (pnum_is _ H1) as [y1 ->]. destruct (pnum_is _ H2) as [y2 ->]. destruct (pnum_is _ H3) as [y3 ->].
      destruct (pnum_is _ H4) as [y4 ->]. destruct (pnum_is _ H5) as [y5 ->]. destruct (pnat_is _ H6) as [y6 ->].
      destruct (pnum_is _ H7) as [y7 ->]. cbn [rbind]. change (dgetd _ "hub_diameter" _) with hu.
      destruct (pnum_is _ H8) as [y8 ->]. destruct (pnat_is _ H9) as [y9 ->]. cbn [rbind pdict]. eauto.
  Qed.

  Lemma prop_dims_ok (v : pyval) dims : prop_dims v = Ok dims ->
    (let p := at_ v "position" in let o := at_ v "orientation" in
     dims = prop_args (at_ p "dx") (at_ p "dy") (at_ p "dz") (at_ o "elevation_angle") (at_ o "heading_angle")
              (at_ v "radial_nodes") (at_ v "diameter") (at_ v "hub_diameter") (at_ v "num_of_blades")
              (at_ v "rotation_direction") (at_ v "pitch") (at_ v "chord")
              (match field v "electric_motor" with Some m => m | None => VDict [] end) (at_ v "airfoils") /\
     (forall k, In k ["dx"; "dy"; "dz"] -> field p k = Some (at_ p k)) /\
     (forall k, In k ["elevation_angle"; "heading_angle"] -> field o k = Some (at_ o k)) /\
     (forall k, In k ["position"; "orientation"; "radial_nodes"; "diameter"; "hub_diameter"; "num_of_blades"; "rotation_direction"; "pitch"; "chord"; "airfoils"] ->
        field v k = Some (at_ v k))).
  Proof.
    unfold prop_dims. intros H. inv. inversion H; subst; clear H. cbv zeta.
    destruct v; try discriminate. simpl in E13. inversion E13; subst; clear E13.
    repeat match goal with H : pget ?v ?k = Ok ?x |- _ =>
      let Hx := fresh in pose proof (pget_at _ _ _ H) as Hx; apply pget_ok in H; subst x end.
    split; [reflexivity|].
    repeat split; intros k Hk; simpl in Hk; repeat (destruct Hk as [<-|Hk]; [assumption|]); contradiction.
  Qed.
  Lemma prop_dims_is (v : pyval) p o : field v "position" = Some p -> field v "orientation" = Some o ->
     (forall k, In k ["dx"; "dy"; "dz"] -> exists x, field p k = Some x) ->
     (forall k, In k ["elevation_angle"; "heading_angle"] -> exists x, field o k = Some x) ->
     (forall k, In k ["radial_nodes"; "diameter"; "hub_diameter"; "num_of_blades"; "rotation_direction"; "pitch"; "chord"; "airfoils"] ->
        exists x, field v k = Some x) ->
     prop_dims v = Ok (prop_args (at_ p "dx") (at_ p "dy") (at_ p "dz") (at_ o "elevation_angle") (at_ o "heading_angle")
              (at_ v "radial_nodes") (at_ v "diameter") (at_ v "hub_diameter") (at_ v "num_of_blades")
              (at_ v "rotation_direction") (at_ v "pitch") (at_ v "chord")
              (match field v "electric_motor" with Some m => m | None => VDict [] end) (at_ v "airfoils")).
  Proof.
    intros Hp Ho H1 H2 H3. unfold prop_dims.
    assert (Hget : forall (w : pyval) k, (exists x, field w k = Some x) -> pget w k = Ok (at_ w k)).
    { intros w k [x Hx]. rewrite (at_field _ _ _ Hx). now apply pget_ok. }
    rewrite (proj2 (pget_ok v "position" p) Hp), (proj2 (pget_ok v "orientation" o) Ho). cbn [rbind].
    rewrite !(Hget p) by (apply H1; simpl; tauto). rewrite !(Hget o) by (apply H2; simpl; tauto). cbn [rbind].
    rewrite !(Hget v) by (apply H3; simpl; tauto). cbn [rbind].
    destruct v; try discriminate. reflexivity.
  Qed.

  Lemma add_prop_inv n d (pl : airplane T) x pl' : add_prop n d pl = (Ok x, pl') ->
    (exists p, make_prop n d = Ok p) /\ dget (a_props pl') n <> None.
  Proof.
    unfold add_prop. destruct (make_prop n d); [|discriminate]. intros H; inversion H; subst; simpl.
    rewrite dget_dset_same. split; [eauto|discriminate].
  Qed.
  Lemma prop_airfoil_inv n m d (pl : airplane T) x pl' : prop_airfoil n m d pl = (Ok x, pl') ->
    (exists a, make_airfoil m d = Ok a) /\ dget (a_props pl') n <> None.
  Proof.
    unfold prop_airfoil. destruct (dget (a_props pl) n); [|discriminate].
    destruct (make_airfoil m d); [|discriminate]. intros H; inversion H; subst; simpl.
    rewrite dget_dset_same. split; [eauto|discriminate].
  Qed.
  Lemma prop_airfoil_succeeds n m d (pl : airplane T) a :
    dget (a_props pl) n <> None -> make_airfoil m d = Ok a -> exists pl', prop_airfoil n m d pl = (Ok a, pl').
  Proof.
    intros Hn Ha. unfold prop_airfoil. destruct (dget (a_props pl) n); [|contradiction]. rewrite Ha. eauto.
  Qed.

  Lemma add_prop_file_ok n v (pl pl' : airplane T) : add_prop_from_file n v pl = (Ok tt, pl') ->
    good_prop v /\ pl' = run_calls (prop_calls n v) pl.
  Proof.
    unfold add_prop_from_file. intros H. inv.
    destruct x2 as [|e r] eqn:Eafs; [discriminate|].
    assert (Hv : x1 = VDict x2) by (destruct x1; try discriminate; simpl in E2; inversion E2; subst; auto).
    subst x1. clear E2. subst x2.
    apply prop_dims_ok in E. cbv zeta in E. destruct E as [Hd [Hp [Ho Hk]]]. subst x.
    destruct (add_prop_inv _ _ _ _ _ E0) as [Hmk _]. apply make_prop_file in Hmk.
    pose proof (pget_at _ _ _ E1) as Ea. apply pget_ok in E1.
    assert (Hpart : good_airfoils (VDict (e :: r)) ->
              good_prop v).
    { intros Hga. unfold good_prop, with_key.
      split. { exists (at_ v "position"). split; [apply Hk; simpl; tauto|].
               repeat split; eexists; (split; [apply Hp; simpl; tauto|tauto]). }
      split. { exists (at_ v "orientation"). split; [apply Hk; simpl; tauto|].
               repeat split; eexists; (split; [apply Ho; simpl; tauto|tauto]). }
      split. { eexists; (split; [apply Hk; simpl; tauto|tauto]). }
      split. { eexists; (split; [apply Hk; simpl; tauto|tauto]). }
      split. { eexists; (split; [apply Hk; simpl; tauto|tauto]). }
      split. { eexists; (split; [apply Hk; simpl; tauto|tauto]). }
      split. { eexists; (split; [apply Hk; simpl; tauto|exact I]). }
      split. { eexists; (split; [apply Hk; simpl; tauto|tauto]). }
      split. { eexists; (split; [apply Hk; simpl; tauto|tauto]). }
      split. { intros m Hm. rewrite Hm in Hmk. tauto. }
      exists (VDict (e :: r)). split; auto. }
    unfold prop_calls. cbv zeta. rewrite run_calls_cons. unfold run_call at 1.
    fold (prop_args (at_ (at_ v "position") "dx") (at_ (at_ v "position") "dy") (at_ (at_ v "position") "dz")
      (at_ (at_ v "orientation") "elevation_angle") (at_ (at_ v "orientation") "heading_angle")
              (at_ v "radial_nodes") (at_ v "diameter") (at_ v "hub_diameter") (at_ v "num_of_blades")
              (at_ v "rotation_direction") (at_ v "pitch") (at_ v "chord")
              (match field v "electric_motor" with Some m => m | None => VDict [] end) (at_ v "airfoils")).
    rewrite E0. cbn [snd]. rewrite <- Ea. cbn [entries].
    destruct e as [m a]. destruct r as [|[k b] r]; inv.
    - destruct (airfoil_entry_ok _ _ _ E E2) as [-> Hg].
      destruct (prop_airfoil_inv _ _ _ _ _ _ E3) as [Hm1 _].
      assert (good_airfoil a) by (apply (Hg [("span_position", VNone)] m); simpl; eauto).
      split; [apply Hpart; exists m, a, []; auto|]. simpl. now rewrite E3.
    - destruct (airfoil_entry_ok _ _ _ E E3) as [-> Hg].
      destruct (airfoil_entry_ok _ _ _ E2 E5) as [-> Hg'].
      destruct (prop_airfoil_inv _ _ _ _ _ _ E4) as [Hm1 _].
      destruct (prop_airfoil_inv _ _ _ _ _ _ E6) as [Hm2 _].
      assert (good_airfoil a) by (apply (Hg [("span_position", VStr "root")] m); simpl; eauto).
      assert (good_airfoil b) by (apply (Hg' [("span_position", VStr "tip")] k); simpl; eauto).
      split; [apply Hpart; exists m, a, ((k, b) :: r); auto|]. simpl. rewrite E4. simpl. now rewrite E6.
  Qed.

  Lemma add_prop_file_succeeds n v (pl : airplane T) : good_prop v ->
    exists pl', add_prop_from_file n v pl = (Ok tt, pl').
  Proof.
    unfold good_prop, with_key.
    intros [[p [Hp [[dx [Hx1 Hx2]] [[dy [Hy1 Hy2]] [dz [Hz1 Hz2]]]]]]
           [[o [Ho [[el [He1 He2]] [he [Hh1 Hh2]]]]]
           [[no [Hn1 Hn2]] [[di [Hd1 Hd2]] [[hu [Hu1 Hu2]] [[bl [Hb1 Hb2]] [[ro [Hr1 _]] [[pi [Hi1 Hi2]] [[ch [Hc1 Hc2]]
           [Hmo [af [Haf1 Haf2]]]]]]]]]]]].
    assert (Hdims := prop_dims_is v p o Hp Ho).
    do 3 specialize (Hdims ltac:(intros k Hk; simpl in Hk; repeat (destruct Hk as [<-|Hk]; [eauto|]); contradiction)).
    destruct (proj2 (make_prop_file n (at_ p "dx") (at_ p "dy") (at_ p "dz") (at_ o "elevation_angle") (at_ o "heading_angle")
              (at_ v "radial_nodes") (at_ v "diameter") (at_ v "hub_diameter") (at_ v "num_of_blades")
              (at_ v "rotation_direction") (at_ v "pitch") (at_ v "chord")
              (match field v "electric_motor" with Some m => m | None => VDict [] end) (at_ v "airfoils"))) as [pr Hpr].
    { rewrite (at_field _ _ _ Hx1), (at_field _ _ _ Hy1), (at_field _ _ _ Hz1), (at_field _ _ _ He1),
      (at_field _ _ _ Hh1), (at_field _ _ _ Hn1), (at_field _ _ _ Hd1), (at_field _ _ _ Hu1), (at_field _ _ _ Hb1),
      (at_field _ _ _ Hi1), (at_field _ _ _ Hc1).
      repeat split; auto. destruct (field v "electric_motor") as [m|]; [now apply Hmo|exists []; auto]. }
    set (pl1 := set_props pl (dset (a_props pl) n pr)).
    assert (E1 : add_prop n (prop_args (at_ p "dx") (at_ p "dy") (at_ p "dz") (at_ o "elevation_angle") (at_ o "heading_angle")
              (at_ v "radial_nodes") (at_ v "diameter") (at_ v "hub_diameter") (at_ v "num_of_blades")
              (at_ v "rotation_direction") (at_ v "pitch") (at_ v "chord")
              (match field v "electric_motor" with Some m => m | None => VDict [] end) (at_ v "airfoils")) pl = (Ok n, pl1)).
    { unfold add_prop. rewrite Hpr. reflexivity. }
    assert (Hn : dget (a_props pl1) n <> None) by (simpl; rewrite dget_dset_same; discriminate).
    destruct Haf2 as [m [a [r [-> [Ha Hr]]]]].
    destruct (good_airfoil_reads _ Ha) as [R1 R2].
    assert (Hstart : forall pl',
      (match (m, a) :: r with
       | (n_root, v_root) :: (n_tip, v_tip) :: _ =>
        root <- slift (pget v_root "properties") ;;
        tip <- slift (pget v_tip "properties") ;;
        rk <- slift (copy_keys airfoil_keys root) ;;
        prop_airfoil n n_root (("span_position", VStr "root") :: rk) ;;;
        tk <- slift (copy_keys airfoil_keys tip) ;;
        prop_airfoil n n_tip (("span_position", VStr "tip") :: tk) ;;;
        sret tt
       | [(n_root, v_root)] =>
        root <- slift (pget v_root "properties") ;;
        rk <- slift (copy_keys airfoil_keys root) ;;
        prop_airfoil n n_root (("span_position", VNone) :: rk) ;;;
        sret tt
       | [] => sraise IndexError
       end) pl1 = (Ok tt, pl') -> add_prop_from_file n v pl = (Ok tt, pl')).
    { intros pl' H. unfold add_prop_from_file. apply slift_bind. eexists; split; [exact Hdims|].
      apply sbind_ok. eexists _, _. split; [exact E1|].
      apply slift_bind. eexists; split; [apply pget_ok; exact Haf1|].
      apply slift_bind. eexists; split; [reflexivity|]. exact H. }
    destruct r as [|[k b] r].
    - destruct (good_make_airfoil a [("span_position", VNone)] m Ha (or_intror (ex_intro _ _ eq_refl))) as [fa Hfa].
      destruct (prop_airfoil_succeeds n m _ pl1 fa Hn Hfa) as [pl2 E2].
      exists pl2. apply Hstart.
      apply slift_bind. eexists; split; [exact R1|]. apply slift_bind. eexists; split; [exact R2|].
      apply sbind_ok. eexists _, _. split; [exact E2|reflexivity].
    - destruct (good_airfoil_reads _ Hr) as [R1' R2'].
      destruct (good_make_airfoil a [("span_position", VStr "root")] m Ha (or_intror (ex_intro _ _ eq_refl))) as [fa Hfa].
      destruct (good_make_airfoil b [("span_position", VStr "tip")] k Hr (or_intror (ex_intro _ _ eq_refl))) as [fb Hfb].
      destruct (prop_airfoil_succeeds n m _ pl1 fa Hn Hfa) as [pl2 E2].
      destruct (prop_airfoil_inv _ _ _ _ _ _ E2) as [_ Hnn].
      destruct (prop_airfoil_succeeds n k _ pl2 fb Hnn Hfb) as [pl3 E3].
      exists pl3. apply Hstart.
      apply slift_bind. eexists; split; [exact R1|]. apply slift_bind. eexists; split; [exact R1'|].
      apply slift_bind. eexists; split; [exact R2|]. apply sbind_ok. eexists _, _. split; [exact E2|].
      apply slift_bind. eexists; split; [exact R2'|]. apply sbind_ok. eexists _, _. split; [exact E3|reflexivity].
  Qed.

  Lemma all_props_ok ps : forall (pl pl' : airplane T),
    siter (fun e => add_prop_from_file (fst e) (snd e)) ps pl = (Ok tt, pl') ->
    (forall n v, In (n, v) ps -> good_prop v) /\
    pl' = run_calls (flat_map (fun e => prop_calls (fst e) (snd e)) ps) pl.
  Proof.
    induction ps as [|[n v] ps IH]; intros pl pl' H; cbn [siter] in H.
    - inversion H; subst. split; auto. contradiction.
    - inv. cbn [fst snd] in E. destruct x. destruct (add_prop_file_ok _ _ _ _ E) as [H1 H2].
      destruct (IH _ _ H) as [H3 H4]. split.
      + intros m u [Eq|Hin]; [inversion Eq; subst; auto|eauto].
      + cbn [flat_map]. rewrite run_calls_app. cbn [fst snd]. rewrite <- H2. exact H4.
  Qed.
  Lemma all_props_succeed ps : forall (pl : airplane T),
    (forall n v, In (n, v) ps -> good_prop v) ->
    exists pl', siter (fun e => add_prop_from_file (fst e) (snd e)) ps pl = (Ok tt, pl').
  Proof.
    induction ps as [|[n v] ps IH]; intros pl Hg; [eexists; reflexivity|].
    destruct (add_prop_file_succeeds n v pl) as [pl1 E1]; [apply (Hg n v); now left|].
    destruct (IH pl1) as [pl2 E2]; [intros m u Hin; apply (Hg m u); now right|].
    exists pl2. cbn [siter]. apply sbind_ok. exists tt, pl1. auto.
  Qed.

  (** *** The whole file *)
  Lemma run_call_set_units u c (pl : airplane T) : run_call c (set_units u pl) = set_units u (run_call c pl).
  Proof.
    destruct c as [n ct s d|id n e p|id p|x y z|la lo|n d|p n d]; simpl; auto.
    - unfold add_wing. destruct (make_wing n s d); auto.
      destruct (fst ct) as [pn|]; [destruct (String.eqb pn "")|]; simpl; auto. destruct (dlookup _ _); auto.
    - unfold wing_airfoil. simpl. destruct (nth_error _ _); auto. destruct (make_airfoil _ _); auto.
    - unfold wing_control_surface. simpl. destruct (nth_error _ _); auto. destruct (make_cs _); auto.
    - unfold add_prop. destruct (make_prop _ _); auto.
    - unfold prop_airfoil. simpl. destruct (dget _ _); auto. destruct (make_airfoil _ _); auto.
  Qed.
  Lemma run_call_set_name u c (pl : airplane T) : run_call c (set_name u pl) = set_name u (run_call c pl).
  Proof.
    destruct c as [n ct s d|id n e p|id p|x y z|la lo|n d|p n d]; simpl; auto.
    - unfold add_wing. destruct (make_wing n s d); auto.
      destruct (fst ct) as [pn|]; [destruct (String.eqb pn "")|]; simpl; auto. destruct (dlookup _ _); auto.
    - unfold wing_airfoil. simpl. destruct (nth_error _ _); auto. destruct (make_airfoil _ _); auto.
    - unfold wing_control_surface. simpl. destruct (nth_error _ _); auto. destruct (make_cs _); auto.
    - unfold add_prop. destruct (make_prop _ _); auto.
    - unfold prop_airfoil. simpl. destruct (dget _ _); auto. destruct (make_airfoil _ _); auto.
  Qed.
  Lemma run_calls_set u n cs : forall pl : airplane T,
    run_calls cs (set_units u (set_name n pl)) = set_units u (set_name n (run_calls cs pl)).
  Proof.
    induction cs as [|c cs IH]; intros pl; auto.
    rewrite !run_calls_cons, run_call_set_units, run_call_set_name. apply IH.
  Qed.

  Lemma check_units_ok (c : pyval) d u : pdict c = Ok d -> check_units (dgetd d "units" VNone) = Ok u ->
    good_units c /\ u = match at_ c "units" with
      | VStr s => Some (if orb (String.eqb s "English") (String.eqb s "english") then "English" else "SI")
      | _ => None end.
  Proof.
    destruct c as [| | | | | |d']; try discriminate. simpl. intros Hd; inversion Hd; subst d'; clear Hd.
    unfold good_units, dgetd, at_, field.
    intros H. split.
    - exists d. split; auto. destruct (dget d "units") as [v|] eqn:E; [right|left; auto].
      exists v. split; auto. destruct v as [| | | |s| |]; try discriminate; [simpl; auto|].
      unfold check_units in H.
      destruct (String.eqb_spec s "English") as [->|]; [simpl; auto|].
      destruct (String.eqb_spec s "english") as [->|]; [simpl; auto|].
      destruct (String.eqb_spec s "SI") as [->|]; [simpl; auto 6|].
      destruct (String.eqb_spec s "si") as [->|]; [simpl; auto 7|].
      destruct (String.eqb_spec s "Si") as [->|]; [simpl; auto 8|]. discriminate.
    - destruct (dget d "units") as [v|] eqn:E; [|simpl in H; congruence].
      destruct v as [| | | |s| |]; try discriminate; [simpl in H; congruence|].
      unfold check_units in H. destruct (orb (String.eqb s "English") (String.eqb s "english")); [congruence|].
      destruct (_ || _ || _)%bool; congruence.
  Qed.
  Lemma check_units_succeeds (c : pyval) : good_units c ->
    exists d u, pdict c = Ok d /\ check_units (dgetd d "units" VNone) = Ok u.
  Proof.
    intros [d [-> Hu]]. exists d. unfold dgetd. destruct Hu as [->|[u [-> Hin]]].
    - eexists; split; reflexivity.
    - simpl in Hin. repeat (destruct Hin as [<-|Hin]; [eexists; split; reflexivity|]). contradiction.
  Qed.

  Definition distinct_wing_names (data : pyval) : Prop := NoDup (map fst (entries (at_ data "wings"))).

  Lemma build_file_ok (data : pyval) name pos pl : distinct_wing_names data ->
    build_from_file data (new_airplane name pos) = (Ok tt, pl) ->
    good_file data /\
    pl = set_units (file_units data) (set_name (str_of (at_ (at_ data "plane") "name"))
           (run_calls (file_calls data) (new_airplane name pos))).
  Proof.
    intros Hnd. unfold build_from_file. intros H. inv. destruct x16.
    set (pl0 := set_units x14 _) in *.
    destruct data as [| | | | | |dd]; try discriminate. simpl in E15. inversion E15; subst x15; clear E15.
    destruct (check_units_ok _ _ _ E13 E14) as [Hgu Hu].
    apply pgets_ok in E0.
    apply pnum_opt_ok in E4, E5, E6, E9, E11.
    repeat match goal with H : pget ?v ?k = Ok ?x |- _ =>
      let Hx := fresh "Hx" in pose proof (pget_at _ _ _ H) as Hx; apply pget_ok in H; subst x end.
    destruct E4 as [G1 ->], E5 as [G2 ->], E6 as [G3 ->], E9 as [G4 ->], E11 as [G5 ->].
    set (data := VDict dd) in *.
    assert (Hwings : (forall wv, field data "wings" = Some wv -> exists ws, wv = VDict ws /\ good_wings ws) /\
              s = run_calls (wings_calls [] (entries (at_ data "wings"))) pl0).
    { unfold distinct_wing_names in Hnd.
      change (field data "wings") with (dget dd "wings").
      unfold at_ in Hnd |- *. change (field data "wings") with (dget dd "wings") in Hnd.
      change (field data "wings") with (dget dd "wings").
      destruct (dget dd "wings") as [wv|].
      - apply slift_bind in E16. destruct E16 as [ws [Ews E16]].
        apply slift_bind in E16. destruct E16 as [conns [Ec E16]].
        destruct wv as [| | | | | |ws']; try discriminate. simpl in Ews. inversion Ews; subst ws'; clear Ews.
        simpl in Hnd.
        assert (Hall : all_id []) by (intros e []).
        destruct (map_connections_ok ws [] [] conns Hall Ec) as [M1 [M2 _]]. specialize (M2 Hnd).
        destruct (all_wings_ok conns ws [] pl0 s eq_refl M2 E16) as [W1 W2].
        split; [|exact W2]. intros wv Hwv. inversion Hwv; subst wv. exists ws. split; auto.
        intros before n v after Heq. split; [|eapply M1; eauto].
        apply (W1 n v). rewrite Heq. apply in_or_app. right. now left.
      - inversion E16; subst. split; [discriminate|reflexivity]. }
    destruct Hwings as [Hwings Hs].
    assert (Hprops : (forall pv, field data "propellers" = Some pv ->
                        exists ps, pv = VDict ps /\ forall n v, In (n, v) ps -> good_prop v) /\
              pl = run_calls (flat_map (fun e => prop_calls (fst e) (snd e)) (entries (at_ data "propellers"))) s).
    { change (field data "propellers") with (dget dd "propellers").
      unfold at_. change (field data "propellers") with (dget dd "propellers").
      destruct (dget dd "propellers") as [pv|].
      - apply slift_bind in H. destruct H as [ps [Eps H]].
        destruct pv as [| | | | | |ps']; try discriminate. simpl in Eps. inversion Eps; subst ps'; clear Eps.
        destruct (all_props_ok _ _ _ H) as [P1 P2]. split; [|exact P2].
        intros pv Hpv. inversion Hpv; subst. exists ps. auto.
      - inversion H; subst. split; [discriminate|reflexivity]. }
    destruct Hprops as [Hprops Hpl].
    split.
    - unfold good_file, with_key. split; [|split; [|split; [|split]]]; auto.
      + exists (at_ data "plane"). split; auto. split; [|split; [|split]]; eexists; split; eauto.
        eexists; reflexivity.
      + exists (at_ data "reference"). split; auto. split; eexists; split; eauto.
      + eexists; split; eauto.
    - rewrite Hpl, Hs. unfold file_calls. cbv zeta.
      rewrite !run_calls_app. cbn [app]. rewrite <- !run_calls_set.
      unfold pl0. rewrite (at_field _ _ _ E0), Hu. reflexivity.
  Qed.

  Lemma build_file_succeeds (data : pyval) name pos : distinct_wing_names data -> good_file data ->
    exists pl, build_from_file data (new_airplane name pos) = (Ok tt, pl).
  Proof.
    intros Hnd [[p [Hp [[nm [Hn1 [ns ->]]] [[cx [Hx1 Hx2]] [[cy [Hy1 Hy2]] [cz [Hz1 Hz2]]]]]]]
               [[r [Hr [[lo [Hlo1 Hlo2]] [la [Hla1 Hla2]]]]] [[c [Hc1 Hc2]] [Hw Hpr]]]].
    destruct (check_units_succeeds c Hc2) as [cd [u [Hcd Hu]]].
    destruct data as [| | | | | |dd]; try discriminate.
    unfold field in Hw, Hpr. unfold distinct_wing_names, at_, field in Hnd.
    set (pl0 := set_units u (set_lat (num_of la) (set_long (num_of lo) (cg_location (num_of cx) (num_of cy) (num_of cz)
                  (set_name ns (new_airplane name pos)))))).
    assert (Hws : exists pl1, (match dget dd "wings" with
     | Some wv =>
         ws <- slift (pdict wv) ;;
         conns <- slift (map_connections ws [] []) ;;
         siter (fun e => add_wing_from_file conns (fst e) (snd e)) ws
     | None => sret tt
     end) pl0 = (Ok tt, pl1)).
    { destruct (dget dd "wings") as [wv|]; [|eexists; reflexivity].
      destruct (Hw wv eq_refl) as [ws [-> Hg]]. simpl in Hnd.
      assert (Hall : all_id []) by (intros e []).
      destruct (map_connections_succeeds ws [] [] Hall) as [conns Hconns].
      { intros pre n v post Heq. now destruct (Hg pre n v post Heq). }
      destruct (map_connections_ok _ _ _ _ Hall Hconns) as [_ [M2 _]].
      destruct (all_wings_succeed conns ws [] pl0) as [pl1 E1].
      - intros n [].
      - apply (M2 Hnd).
      - intros n v Hin. apply in_split in Hin. destruct Hin as [pre [post Heq]].
        now destruct (Hg pre n v post Heq).
      - exists pl1. apply slift_bind. exists ws. split; auto. apply slift_bind. exists conns. split; auto. }
    destruct Hws as [pl1 Hws].
    assert (Hps : exists pl2, (match dget dd "propellers" with
     | Some pv =>
         ps <- slift (pdict pv) ;;
         siter (fun e => add_prop_from_file (fst e) (snd e)) ps
     | None => sret tt
     end) pl1 = (Ok tt, pl2)).
    { destruct (dget dd "propellers") as [pv|]; [|eexists; reflexivity].
      destruct (Hpr pv eq_refl) as [ps [-> Hg]].
      destruct (all_props_succeed ps pl1 Hg) as [pl2 E2].
      exists pl2. apply slift_bind. exists ps. split; auto. }
    destruct Hps as [pl2 Hps].
    exists pl2. unfold build_from_file.
    apply slift_bind. exists p. split; [now apply pget_ok|].
    apply slift_bind. exists ns. split; [now apply pgets_ok|]. apply smod_bind.
    apply slift_bind. exists cx. split; [now apply pget_ok|].
    apply slift_bind. exists cy. split; [now apply pget_ok|].
    apply slift_bind. exists cz. split; [now apply pget_ok|].
    apply slift_bind. exists (num_of cx). split; [now apply pnum_opt_is|].
    apply slift_bind. exists (num_of cy). split; [now apply pnum_opt_is|].
    apply slift_bind. exists (num_of cz). split; [now apply pnum_opt_is|]. apply smod_bind.
    apply slift_bind. exists r. split; [now apply pget_ok|].
    apply slift_bind. exists lo. split; [now apply pget_ok|].
    apply slift_bind. exists (num_of lo). split; [now apply pnum_opt_is|]. apply smod_bind.
    apply slift_bind. exists la. split; [now apply pget_ok|].
    apply slift_bind. exists (num_of la). split; [now apply pnum_opt_is|]. apply smod_bind.
    apply slift_bind. exists c. split; [now apply pget_ok|].
    apply slift_bind. exists cd. split; [exact Hcd|].
    apply slift_bind. exists u. split; [exact Hu|]. apply smod_bind.
    apply slift_bind. exists dd. split; [reflexivity|].
    apply sbind_ok. exists tt, pl1. split; [exact Hws|]. exact Hps.
  Qed.
End File.
