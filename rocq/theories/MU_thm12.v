(** Construction of the model (C08, C17). *)
From Coq Require Import Reals ZArith String Bool Arith Lia Lra List.
From Verif Require Import Base Num RVec Geometry Api Grid Grid_facts LLModel PropModel Spec_Grid Spec_LL LL_R MU Spec_MU File_thm Grid_thm.
Import ListNotations.
Local Open Scope string_scope.

(** *** C08 *)
Section Refs.
  Local Open Scope R_scope.
  Lemma widest_spec (segs : list (segment R)) : forall m : R,
    let v := fold_left (fun m s => let span := nmul n2 (sg_span s) in if ngtb span m then span else m) segs m in
    m <= v /\ (forall sg, In sg segs -> 2 * sg_span sg <= v) /\ (v = m \/ exists sg, In sg segs /\ v = 2 * sg_span sg).
  Proof.
    induction segs as [|s segs IH]; intros m; cbv zeta in *; cbn [fold_left].
    - split; [lra|]. split; [intros _ []|now left].
    - assert (G : forall x : R, (if ngtb (nmul n2 (sg_span s)) m then nmul n2 (sg_span s) else m) = x ->
        (m <= x /\ 2 * sg_span s <= x /\ (x = m \/ x = 2 * sg_span s))).
      { intros x <-. unfold ngtb. rnum. destruct (Rltb m (2 * sg_span s)) eqn:El.
        - apply Rltb_true in El. repeat split; [lra|lra|now right].
        - apply Rltb_false in El. repeat split; [lra|lra|now left]. }
      destruct (G _ eq_refl) as (G1 & G2 & G3). clear G. set (x := if ngtb _ m then _ else m) in *. clearbody x.
      destruct (IH x) as (A & B & C). split; [lra|]. split.
      + intros sg [<-|I]; [lra|now apply B].
      + destruct C as [C|(sg & I & C)]; [|right; exists sg; cbn; auto].
        destruct G3 as [->| ->]; [now left|right; exists s; cbn; auto].
  Qed.

  Lemma machup_wings E (pl : airplane R) X : make_machup E pl = Ok X -> a_wings pl <> [] ->
    exists g, make_grid true pl = Ok g /\ mm_grid X = Some g /\ mm_refs X = Some (make_refs pl g) /\ mm_cg X = a_cg pl.
  Proof.
    unfold make_machup. intros K Hw.
    destruct (a_wings pl) as [|q l]; [now destruct Hw|].
    destruct (make_grid true pl) as [g'|] eqn:Eg'; [|discriminate]. cbn [rbind option_map] in K. exists g'.
    destruct (a_props pl); [|destruct (make_props _ _ _)]; cbn in K; try discriminate; injection K as <-; auto.
  Qed.

  Lemma segments_of (pl : airplane R) g : make_grid true pl = Ok g -> g_segments g = wingsegments pl.
  Proof. intros K. destruct (make_grid_spec _ _ K) as (b & _ & _ & K1 & _). exact K1. Qed.

  Lemma reference_lengths E (pl : airplane R) X : make_machup E pl = Ok X -> a_wings pl <> [] ->
    exists g r, make_grid true pl = Ok g /\ mm_refs X = Some r /\ r_Sw r = g_ref_area g /\
      (forall x, a_lat_ref pl = Some x -> r_lat r = x) /\
      (forall x, a_long_ref pl = Some x -> r_long r = x) /\
      (a_lat_ref pl = None -> a_long_ref pl = None ->
         (forall sg, In sg (wingsegments pl) -> 2 * sg_span sg <= r_lat r) /\
         (r_lat r = 0 \/ exists sg, In sg (wingsegments pl) /\ r_lat r = 2 * sg_span sg)) /\
      (a_long_ref pl = None -> r_lat r <> 0 -> r_lat r * r_long r = r_Sw r) /\
      (forall x, a_lat_ref pl = None -> a_long_ref pl = Some x -> x <> 0 -> r_lat r * r_long r = r_Sw r).
  Proof.
    intros K Hw. destruct (machup_wings E pl X K Hw) as (g & Eg & _ & Er & _). exists g, (make_refs pl g).
    split; [exact Eg|]. split; [exact Er|]. unfold make_refs, widest. rewrite (segments_of pl g Eg).
    destruct (widest_spec (wingsegments pl) n0) as (A & B & C). cbv zeta in A, B, C.
    set (v := fold_left _ (wingsegments pl) n0) in *. clearbody v. rnum. cbv beta in *.
    destruct (a_lat_ref pl) as [la|], (a_long_ref pl) as [lo|]; cbn [r_Sw r_lat r_long];
      (split; [reflexivity|]); (split; [intros x Q; now inversion Q|]); (split; [intros x Q; now inversion Q|]);
      (split; [intros Q1 Q2; try discriminate|]).
    1-3: split; [intros Q1 Q2|intros x Q1 Q2 Q3]; try discriminate; try (injection Q2 as <-); field; auto.
    - split; [exact B|exact C].
    - split; [intros _ Q2; field; exact Q2|discriminate].
  Qed.
End Refs.

(** *** C17 *)
Section Units.
  Context {T : Type} {N : num_ops T}.

  Lemma run_call_units c (pl : airplane T) : a_units (run_call c pl) = a_units pl.
  Proof.
    destruct c as [n ct s d|id n e p|id p|x y z|la lo|n d|p n d]; simpl; auto.
    - unfold add_wing. destruct (make_wing n s d); auto.
      destruct (fst ct) as [pn|]; [destruct (String.eqb pn "")|]; simpl; auto. destruct (dlookup _ _); auto.
    - unfold wing_airfoil. destruct (nth_error _ _); auto. destruct (make_airfoil _ _); auto.
    - unfold wing_control_surface. destruct (nth_error _ _); auto. destruct (make_cs _); auto.
    - unfold add_prop. destruct (make_prop _ _); auto.
    - unfold prop_airfoil. destruct (dget _ _); auto. destruct (make_airfoil _ _); auto.
  Qed.
  Lemma run_calls_units cs : forall pl : airplane T, a_units (run_calls cs pl) = a_units pl.
  Proof. induction cs as [|c cs IH]; intros pl; [reflexivity|]. cbn. unfold run_calls in IH. rewrite IH. apply run_call_units. Qed.

  Lemma file_has_units data name pos (pl : airplane T) :
    build_from_file data (new_airplane name pos) = (Ok tt, pl) -> a_units pl <> None.
  Proof.
    unfold build_from_file. intros H.
    repeat match goal with
    | H : sbind (slift _) _ _ = (Ok _, _) |- _ =>
        apply slift_bind in H; let a := fresh "x" in let E := fresh "E" in destruct H as [a [E H]]
    | H : sbind (smod _) _ _ = _ |- _ => apply smod_bind in H
    end.
    set (P := fun q : airplane T => a_units q <> None).
    assert (Hc : forall c q, P q -> P (run_call c q)) by (intros c q; unfold P; now rewrite run_call_units).
    match type of H with ?m ?s = _ => assert (G : preserves P m); [|specialize (G s); rewrite H in G; apply G; cbn; discriminate] end.
    apply pres_bind; [|intros _].
    - destruct (dget _ "wings"); [|apply pres_ret]. apply pres_bind; [apply pres_lift|intros ws]. apply pres_bind; [apply pres_lift|intros cn].
      apply pres_iter. intros. now apply pres_add_wing_file.
    - destruct (dget _ "propellers"); [|apply pres_ret]. apply pres_bind; [apply pres_lift|intros ws].
      apply pres_iter. intros. now apply pres_add_prop_file.
  Qed.

  Lemma props_no_units E (pl : airplane T) pts : a_props pl <> [] -> a_units pl = None -> make_props E pl pts = Err AttributeError.
  Proof. unfold make_props, get_units. intros Hp ->. destruct (a_props pl) as [|p l]; [now destruct Hp|]. reflexivity. Qed.

  Lemma api_propeller E cs name pos : let pl := run_calls cs (new_airplane (T := T) name pos) in
    a_props pl <> [] -> (a_wings pl <> [] -> exists g, make_grid true pl = Ok g) ->
    make_machup E pl = Err AttributeError.
  Proof.
    intros pl Hp Hg. assert (Hu : a_units pl = None) by (unfold pl; now rewrite run_calls_units). clearbody pl.
    unfold make_machup. destruct (a_props pl) as [|p l] eqn:Ep; [now destruct Hp|].
    assert (G : forall pts, make_props (me_prop E) pl pts = Err AttributeError) by (intros; apply props_no_units; congruence).
    destruct (a_wings pl) as [|q ws].
    - cbn [rbind]. now rewrite G.
    - destruct Hg as [g Eg]; [discriminate|]. rewrite Eg. cbn [rbind]. now rewrite G.
  Qed.
  Lemma api_without_propeller E (pl : airplane T) : a_props pl = [] ->
    ((exists X, make_machup E pl = Ok X) <-> (a_wings pl <> [] -> exists g, make_grid true pl = Ok g)).
  Proof.
    intros Ep. unfold make_machup. rewrite Ep. destruct (a_wings pl) as [|q ws]; cbn [rbind].
    - split; intros; [congruence|eauto].
    - destruct (make_grid true pl) as [g|e]; cbn [rbind]; split; intros K; eauto.
      + destruct K; discriminate.
      + destruct K as [g K]; discriminate.
  Qed.
  Lemma file_units_known data name pos cs (pl : airplane T) :
    build_from_file data (new_airplane name pos) = (Ok tt, pl) -> exists u, get_units (run_calls cs pl) = Ok u.
  Proof.
    intros K. apply file_has_units in K. unfold get_units. rewrite run_calls_units. destruct (a_units pl); [eauto|congruence].
  Qed.
End Units.
