(** When the analysis of a propeller returns (C87). *)
From Coq Require Import Reals ZArith String Bool Arith Lia Lra List.
From Verif Require Import Base Num RVec Geometry Api Grid LLModel PropModel Spec_Grid Spec_Geom Spec_LL Spec_Prop Spec_Few
  Prop_state LL_R Prop_thm Prop_thm2 Prop_thm3 Prop_thm4 Prop_thm5 Prop_thm7 Prop_twin.
Import ListNotations.
Local Open Scope string_scope.

(** *** A blade with fewer than three stations *)
Section Few.
  Context {T : Type} {N : num_ops T}.
  Lemma filter_short {A} (f : A -> bool) l : (List.length (filter f l) <= List.length l)%nat.
  Proof. induction l as [|x l IH]; cbn; [lia|]. destruct (f x); cbn; lia. Qed.
  Lemma map2_short {A B C} (f : A -> B -> C) : forall l l', (List.length (map2 f l l') <= List.length l)%nat.
  Proof. induction l as [|x l IH]; intros [|y l']; cbn; try lia. specialize (IH l'). lia. Qed.
  Lemma ei_loop_ends mem k d bl : forall fuel clk i (l : list (estep T)), (List.length l < 3)%nat -> (51 <= i + fuel)%nat -> (0 < fuel)%nat ->
    exists x, ei_loop fuel mem clk k d bl i l = Ok x.
  Proof.
    induction fuel as [|fuel IH]; intros clk i l Hl Hf H0; [lia|]. cbn [ei_loop]. cbv zeta. pose proof (filter_short e_moves l) as Hs.
    destruct ((50 <? Datatypes.S i)%nat && (List.length (filter e_moves l) <? 3)%nat || (List.length (filter e_moves l) =? 0)%nat)%bool eqn:Eb; [eauto|].
    apply orb_false_iff in Eb. destruct Eb as [Eb _]. apply andb_false_iff in Eb.
    assert (Hi : (Datatypes.S i <= 50)%nat).
    { destruct Eb as [Eb|Eb]; apply Nat.ltb_ge in Eb; lia. }
    apply IH; [|lia|lia]. eapply Nat.le_lt_trans; [apply map2_short|exact Hl].
  Qed.
  Lemma esteps_short (ss : list (station T)) : forall a b c d e, (List.length (esteps ss a b c d e) <= List.length ss)%nat.
  Proof. induction ss as [|s ss IH]; intros [|] [|] [|] [|] [|]; cbn; try lia. specialize (IH l l0 l1 l2 l3). lia. Qed.
  Lemma coefficients_end E (g : pgeom T) s : (0 < List.length (pg_stations g) < 3)%nat -> (51 <= pe_fuel E)%nat ->
    exists s', find_coefficients E g s = (Ok tt, s').
  Proof.
    intros [H0 Hl] Hf. unfold find_coefficients. cbv zeta.
    destruct (last_of (pg_stations g)) as [sl|] eqn:El.
    2:{ unfold last_of in El. apply nth_error_None in El. lia. }
    unfold find_ei. cbv zeta. match goal with |- context [ei_loop ?f ?m ?c ?k ?d ?b ?i ?l] =>
      destruct (ei_loop_ends m k d b f c i l) as ([ei clk] & K) end; [|lia|lia|].
    - eapply Nat.le_lt_trans; [apply esteps_short|exact Hl].
    - rewrite K. eauto.
  Qed.
End Few.

Local Open Scope R_scope.

Section Outcome.
  Variable slow : Prop.
  Definition ended {A} (r : res A) : Prop := (exists x, r = Ok x) \/ (slow /\ r = Err OutOfFuel).
  Lemma ei_loop_only mem k d bl : forall fuel clk i (l : list (estep R)), (exists x, ei_loop fuel mem clk k d bl i l = Ok x) \/ ei_loop fuel mem clk k d bl i l = Err OutOfFuel.
  Proof.
    induction fuel as [|fuel IH]; intros clk i l; cbn [ei_loop]; [now right|]. cbv zeta.
    match goal with |- context [if ?b then _ else _] => destruct b end; [eauto|apply IH].
  Qed.
  Lemma coefficients_ended E (g : pgeom R) s : pg_stations g <> [] -> slow \/ ((List.length (pg_stations g) < 3)%nat /\ (51 <= pe_fuel E)%nat) ->
    ended (fst (find_coefficients E g s)).
  Proof.
    intros Hne [Hs|[H1 H2]].
    - unfold find_coefficients. cbv zeta. destruct (last_of (pg_stations g)) as [sl|] eqn:El.
      2:{ unfold last_of in El. apply nth_error_None in El. destruct (pg_stations g); [congruence|cbn in El; lia]. }
      unfold find_ei. cbv zeta. match goal with |- context [ei_loop ?f ?m ?c ?k ?d ?b ?i ?l] => destruct (ei_loop_only m k d b f c i l) as [([ei clk] & K)|K] end; rewrite K.
      + left. eexists. reflexivity.
      + right. auto.
    - destruct (coefficients_end E g s) as (s' & K); [|exact H2|].
      + destruct (pg_stations g); [congruence|cbn in *; lia].
      + rewrite K. left. eexists. reflexivity.
  Qed.
  Lemma pydiv_nz (a b : R) : b <> 0 -> pydiv a b = Ok (a / b).
  Proof. intros H. unfold pydiv. rnum. replace (Reqb b 0) with false by (symmetry; now apply Reqb_false). reflexivity. Qed.
  Lemma accepted_set V d x (s : pstate R) : d <> 0 -> p_Vinf s = V -> accepted V x ->
    exists n j, p_set_prop d x s = (Ok tt, set_op n j None None s).
  Proof.
    intros Hd HV [H|(l & -> & H)].
    - assert (D : exists n j, default_op d s = (Ok tt, set_op n j None None s)).
      { unfold default_op, sbind, sget, slift, smod. rewrite pydiv_nz; [eauto|]. rnum. unfold Rdec. simpl. intros K. apply Hd. lra. }
      destruct x as [[y|[|e l]]|]; cbn [empty_setting] in H; try discriminate H; unfold p_set_prop; try exact D. now rewrite H.
    - unfold p_set_prop. destruct l as [|e l].
      + exfalso. destruct H as [(j & K & _)|[(j & n & K & _)|(n & _ & K & _)]]; discriminate K.
      + set (dd := e :: l) in *. clearbody dd. unfold sbind, smod, sget, slift.
        destruct H as [(j & K & Hj & HV0)|[(j & n & K & K2 & H0)|(n & K & K2 & Hn)]]; rewrite K; try rewrite K2; cbn [vnum p_Vinf set_op].
        * rnum. rewrite HV. replace (Reqb j 0) with false by (symmetry; now apply Reqb_false). replace (Reqb V 0) with false by (symmetry; now apply Reqb_false).
          cbn [orb]. rewrite pydiv_nz by (apply Rmult_integral_contrapositive_currified; assumption). eexists _, _. reflexivity.
        * rnum. rewrite HV. replace (Reqb j 0 || Reqb V 0)%bool with true.
          2:{ symmetry. apply orb_true_iff. rewrite !Reqb_true. exact H0. }
          eexists _, _. reflexivity.
        * rewrite pydiv_nz by (rnum; apply Rmult_integral_contrapositive_currified; assumption). eexists _, _. reflexivity.
  Qed.
  Variables (E : penv R) (cg : vec3 R) (a : aero_state R) (ps : option (dict (pval R))) (V rho : R).
  Hypothesis HV : dget (an a) "V_mag" = Some V.
  Hypothesis Hr : dget (an a) "rho" = Some rho.
  Hypothesis Hang : cos (degrees (entry (an a) "alpha")) <> 0 \/ cos (degrees (entry (an a) "beta")) <> 0.
  Lemma run_ended u pts p g s : make_pgeom E u pts p = Ok g -> pr_nodes p <> 0%nat ->
    slow \/ ((pr_nodes p < 3)%nat /\ (51 <= pe_fuel E)%nat) -> accepted V (setting_of ps (pr_name p)) ->
    ended (fst (run_prop E cg (Some a) ps g s)).
  Proof.
    intros Hg Hn Hf Ha. destruct (make_pgeom_data _ _ _ _ _ Hg) as (E1 & E2 & E3 & E4 & E5 & E6 & _).
    assert (Na : an a <> []) by (intros Q; now rewrite Q in HV).
    assert (Hd : pr_diameter p <> 0 /\ List.length (pg_stations g) = pr_nodes p).
    { revert Hg. unfold make_pgeom, zetas. destruct (pr_diameter p =? n0)%num eqn:Ez; [discriminate|]. cbn [rbind]. cbv zeta.
      destruct (PropModel.coefficients _ _) as [c|]; [|discriminate]. cbn [rbind]. destruct (PropModel.pitch _ _) as [b|]; [|discriminate]. cbn [rbind].
      destruct (PropModel.chord _ _ _) as [cb|]; [|discriminate]. cbn [rbind]. destruct (PropModel.make_motor _) as [mo|]; [|discriminate]. cbn [rbind]. intros Hg.
      apply (f_equal (fun o => match o with Ok y => List.length (pg_stations y) | Err _ => 0%nat end)) in Hg. cbn [pg_stations] in Hg.
      rewrite !map_length, seq_length in Hg. split; [|now symmetry]. revert Ez. rnum. intros Ez. now apply Reqb_false in Ez. }
    destruct Hd as [Hd Hl].
    rewrite run_prop_blades. unfold sbind. rewrite (set_aero_given a s Na), HV, Hr.
    set (v := freestream n1 _ _). set (s1 := set_flow_p v rho V s).
    assert (B : exists r s2, blades E g (local_state ps (pg_name g)) s1 = (r, s2) /\ ended r).
    { unfold blades, sbind. rewrite (p_set_prop_same (pg_d g) _ _ (local_setting ps (pg_name g))), E5, E3.
      destruct (accepted_set V (pr_diameter p) (setting_of ps (pr_name p)) s1 Hd eq_refl Ha) as (n & j & K). rewrite K.
      cbv beta iota delta [sget]. cbn [p_power p_throttle set_op].
      match goal with |- context [find_coefficients E g ?t] => pose proof (coefficients_ended E g t) as C; destruct (find_coefficients E g t) as [rc s3] end.
      cbn [fst] in C. rewrite Hl in C. specialize (C ltac:(intros Q; rewrite Q in Hl; cbn in Hl; congruence) Hf).
      destruct C as [([] & ->)|[Hs ->]].
      - unfold smod. eexists _, _. split; [reflexivity|]. left. eauto.
      - eexists _, _. split; [reflexivity|]. right. auto. }
    destruct B as (r & s2 & B & Br). pose proof (blades_keep E g (local_state ps (pg_name g)) s1) as Kv. rewrite B in Kv. cbn [snd] in Kv.
    rewrite B. destruct Br as [([] & ->)|[Hs ->]]; [|right; auto]. unfold sget, slift, smod, sret.
    assert (Hv : vdot (p_v s2) (p_v s2) = 1).
    { rewrite Kv. change (p_v s1) with v. unfold v. rewrite !dgetd_entry. eapply airflow_1_unit. apply freestream_airflow; [rnum; lra|]. now apply not_both_right. }
    assert (Hu : vdot (pg_forward g) (pg_forward g) = 1) by (rewrite E1; apply propeller_axis_unit).
    assert (K4 : exists q, resolve g cg s2 = Ok q).
    { unfold resolve. rewrite (vec_angle_ok _ _ Hu (vopp_unit _ Hv)). unfold rbind.
      destruct (acos _ =? n0)%num; eexists; reflexivity. }
    destruct K4 as (q & K4). rewrite K4. left. eexists. reflexivity.
  Qed.
  Lemma runs_ended u pts : forall l gs ss, rmap (fun p => make_pgeom E u pts p) l = Ok gs -> List.length ss = List.length gs ->
    (forall p, In p l -> pr_nodes p <> 0%nat /\ (slow \/ ((pr_nodes p < 3)%nat /\ (51 <= pe_fuel E)%nat)) /\ accepted V (setting_of ps (pr_name p))) ->
    ended (fst (run_props E cg (Some a) ps gs ss)) /\
    (forall qs ss', run_props E cg (Some a) ps gs ss = (Ok qs, ss') -> List.length qs = List.length l).
  Proof.
    induction l as [|p l IH]; cbn [rmap]; intros gs ss K Hl H.
    - injection K as <-. destruct ss; [|discriminate]. split; [left; eexists; reflexivity|]. intros qs ss' Q. cbn [run_props] in Q. apply pair_equal_spec in Q.
      destruct Q as [Q _]. injection Q as <-. reflexivity.
    - destruct (make_pgeom E u pts p) as [g|] eqn:Eg; [|discriminate]. cbn [rbind] in K. destruct (rmap (fun p => make_pgeom E u pts p) l) as [gs'|] eqn:Egs; [|discriminate].
      injection K as <-. destruct ss as [|s ss]; [discriminate|]. cbn [List.length] in Hl.
      destruct (H p ltac:(now left)) as (H1 & H2 & H3). pose proof (run_ended u pts p g s Eg H1 H2 H3) as R0.
      destruct (IH gs' ss eq_refl ltac:(lia) ltac:(intros p' Hp; apply H; now right)) as [R1 R2].
      cbn [run_props]. destruct (run_prop E cg (Some a) ps g s) as [[q|e] s'].
      + destruct (run_props E cg (Some a) ps gs' ss) as [[qs|e] ss'].
        * split; [left; eexists; reflexivity|]. intros qs' ss'' Q. apply pair_equal_spec in Q. destruct Q as [Q _]. injection Q as <-. cbn [List.length]. f_equal. now apply (R2 qs ss').
        * split; [|discriminate]. cbn [fst] in *. destruct R1 as [(x & Q)|[Hs Q]]; [discriminate Q|]. injection Q as ->. right. auto.
      + split; [|discriminate]. cbn [fst] in *. destruct R0 as [(x & Q)|[Hs Q]]; [discriminate Q|]. injection Q as ->. right. auto.
  Qed.
  Lemma props_ended pl pts gs n ss : make_props E pl pts = Ok gs -> a_props pl <> [] -> List.length ss = List.length gs ->
    (forall p, In p (map snd (a_props pl)) -> pr_nodes p <> 0%nat /\ (slow \/ ((pr_nodes p < 3)%nat /\ (51 <= pe_fuel E)%nat)) /\ accepted V (setting_of ps (pr_name p))) ->
    ended (fst (props_solve E cg n (Some a) ps gs ss)).
  Proof.
    intros Hm Hne Hl H.
    assert (Hu : exists u, rmap (fun p => make_pgeom E u pts p) (map snd (a_props pl)) = Ok gs).
    { unfold make_props in Hm. destruct (get_units pl) as [u|e]; [exists u; exact Hm|]. exfalso. destruct (a_props pl) as [|x l]; [congruence|]. discriminate Hm. }
    destruct Hu as (u & Hu). destruct (runs_ended u pts _ gs ss Hu Hl H) as [R0 R1].
    unfold props_solve, calc_forces, sbind. destruct (run_props E cg (Some a) ps gs ss) as [[qs|e] ss'].
    - specialize (R1 qs ss' eq_refl). destruct (last_of qs) as [[[[F M] Th] l]|] eqn:El.
      2:{ exfalso. unfold last_of in El. apply nth_error_None in El. destruct (a_props pl); [congruence|]. cbn in R1. lia. }
      destruct n as [n|]; [|left; eexists; reflexivity].
      assert (Ev : exists rows, velocity_field (Some a) n = Ok rows).
      { unfold velocity_field, opt_truthy. replace (aero_truthy a) with true.
        - rewrite HV, Hr. eauto.
        - unfold aero_truthy, dtruthy. destruct (an a); [discriminate HV|reflexivity]. }
      destruct Ev as (rows & Ev). unfold slift. rewrite Ev. left. eexists. reflexivity.
    - cbn [fst] in *. destruct R0 as [(x & Q)|[Hs Q]]; [discriminate Q|]. injection Q as ->. right. auto.
  Qed.
End Outcome.
