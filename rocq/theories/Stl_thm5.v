(** The drawing of a MachUp object (C60, C62, C63). *)
From Coq Require Import Reals ZArith String Ascii Bool Arith List Lra Lia Permutation Sorted.
From Verif Require Import Base Num RVec Geometry Grid Spec_Grid Grid_R Grid_facts Grid_thm PropModel MU
     Spec_Prop Prop_thm6 Stl Spec_Stl Stl_thm Stl_thm2 Stl_R Stl_thm3 Stl_thm4.
Import ListNotations.
Local Open Scope R_scope.

Lemma pgeom_axes E u wp (p : prop R) g : make_pgeom E u wp p = Ok g ->
  (pg_rot g = 1 \/ pg_rot g = -1) /\ pg_forward g = forward_of (pg_theta g) (pg_gamma g).
Proof.
  unfold make_pgeom, rbind. destruct (zetas p) as [zs|]; [|discriminate].
  destruct (PropModel.coefficients p zs) as [c|]; [|discriminate].
  destruct (pitch E p) as [b|]; [|discriminate].
  destruct (chord E p zs) as [cb|]; [|discriminate].
  destruct (make_motor p) as [m|]; [|discriminate].
  intros H. apply (f_equal (fun o => match o with Ok y => y | Err _ => g end)) in H. subst g.
  cbn [pg_forward pg_theta pg_gamma pg_rot]. split; [|reflexivity].
  unfold rot_dir. destruct (peq_str _ _ || _ || _)%bool; [now left|].
  destruct (peq_str _ _ || _ || _)%bool; [now right|now left].
Qed.

Lemma combine_snd {A B} (l : list A) (l' : list B) : List.length l' = List.length l -> map snd (combine l l') = l'.
Proof. revert l'. induction l as [|x l IH]; intros [|y l'] H; simpl in *; try discriminate; auto. f_equal; auto. Qed.
Lemma forall_combine_snd {A B} (P : B -> Prop) (l : list A) (l' : list B) :
  Forall P l' -> Forall (fun q => P (snd q)) (combine l l').
Proof.
  intros H. revert l. induction H as [|y l' H1 H2 IH]; intros [|x l]; simpl; constructor; auto.
Qed.
Lemma forall_and {A} (P Q : A -> Prop) l : Forall P l -> Forall Q l -> Forall (fun x => P x /\ Q x) l.
Proof. induction 1; inversion 1; subst; constructor; auto. Qed.

Lemma f2_impl {A B} (P Q : A -> B -> Prop) l l' : (forall x y, P x y -> Q x y) -> Forall2 P l l' -> Forall2 Q l l'.
Proof. intros H. induction 1; constructor; auto. Qed.

Lemma span_lists (E : penv R) u pts (props : list (prop R * pgeom R)) :
  Forall (paired E u pts) props ->
  exists afs, Forall2 (fun q a => span_list (fst q) (map (@z_zeta R) (pg_stations (snd q))) = Ok a) props afs.
Proof.
  induction 1 as [|[p g] props H1 H2 [afs IH]]; [exists []; constructor|].
  unfold paired in H1. cbn [fst snd] in H1.
  destruct (pgeom_stations _ _ _ _ _ H1) as (zs & _ & Hz & _ & c & Hc).
  destruct (span_list_ok _ _ _ Hc) as [l Hl]. exists (l :: afs). constructor; auto. cbn [fst snd]. now rewrite Hz.
Qed.

Definition own_props (pl : airplane R) (X : machup R) := combine (map snd (a_props pl)) (mm_props X).

Section Whole.
  Variables (E : menv R) (pl : airplane R) (X : machup R).
  Hypothesis HX : make_machup E pl = Ok X.
  Hypothesis HS : Forall (fun g => pg_stations g <> []) (mm_props X).

  Lemma props_placed : Forall (fun g => (0 < pg_k g)%nat) (mm_props X) -> Forall placed_well (own_props pl X).
  Proof.
    intros HK. destruct (machup_inv _ _ _ HX) as (_ & _ & u & pts & HQ & _).
    pose proof (forall_and _ _ _ HQ (forall_and _ _ _ (forall_combine_snd _ (map snd (a_props pl)) _ HS)
                                        (forall_combine_snd _ (map snd (a_props pl)) _ HK))) as H.
    revert H. apply Forall_impl. intros q (A & B & C). unfold paired in A. destruct (pgeom_axes _ _ _ _ _ A).
    repeat split; auto.
  Qed.
  Lemma parts_of_create :
    create_from_grid 50 (mm_grid X) (own_props pl X)
    = (rlet w := grid_parts 50 (mm_grid X) in rlet b := prop_parts 50 (own_props pl X) None in
       Ok (flat_map (surface false) w ++ prop_mesh b)%list).
  Proof.
    destruct (machup_inv _ _ _ HX) as (HG & _).
    apply create_parts; [lia| |].
    - destruct (mm_grid X); auto. eapply grid_well_sliced; apply HG.
    - exact (forall_combine_snd (fun g => pg_stations g <> []) (map snd (a_props pl)) _ HS).
  Qed.

  Lemma drawing : Forall (fun g => (0 < pg_k g)%nat) (mm_props X) ->
    exists afs,
      Forall2 (fun q a => blade_airfoils (fst q) (map (@z_zeta R) (pg_stations (snd q))) a) (own_props pl X) afs /\
      forall wl wr bl,
        (a_wings pl <> [] ->
           Forall2 drawn_profile (histories [] (map left_name (wingsegments pl))) wl /\
           Forall2 drawn_profile (histories [] (map right_name (wingsegments pl))) wr) ->
        Forall2 (fun a b => map fst a = map fst b) afs bl ->
        Forall2 drawn_profile (histories [] (map snd (concat afs))) (map snd (concat bl)) ->
        create_from_grid 50 (mm_grid X) (own_props pl X)
        = Ok (airplane_mesh (fun s => z_beta s - z_al0 s) (mm_grid X) (mm_props X) wl wr bl).
  Proof.
    intros HK. destruct (machup_inv _ _ _ HX) as (HG & _ & u & pts & HQ & HL).
    destruct (span_lists _ _ _ _ HQ) as [afs HA]. exists afs. split.
    { refine (f2_impl _ _ _ _ _ HA). intros q a. apply span_list_airfoils. }
    intros wl wr bl HW HB HD. rewrite parts_of_create.
    change (@None string) with (value_after []).
    destruct (prop_drawing _ _ _ [] (props_placed HK) HA HB HD) as (parts & P1 & P2).
    assert (EB : concat (map (fun q => propeller_mesh drawn_pitch (snd (fst q)) (snd q)) (combine (own_props pl X) bl))
                 = concat (map (fun q => propeller_mesh (fun s => z_beta s - z_al0 s) (fst q) (snd q)) (combine (mm_props X) bl))).
    { assert (E1 : map snd (own_props pl X) = mm_props X).
      { apply combine_snd. rewrite HL. now rewrite map_length. }
      rewrite <- E1. f_equal. generalize (own_props pl X). clear. intros l. revert bl.
      induction l as [|q l IH]; intros [|b bl]; simpl; auto. f_equal. apply IH. }
    unfold airplane_mesh. rewrite <- EB, <- P2. rewrite P1.
    destruct (mm_grid X) as [g|].
    - destruct HG as [HG Hw]. destruct (HW Hw) as [W1 W2].
      destruct (wing_drawing pl g wl wr HG W1 W2) as (w & Q1 & Q2). rewrite Q1. cbn [rbind]. now rewrite Q2.
    - reflexivity.
  Qed.

  (** a first name that begins with NACA but has not eight characters *)
  Lemma first_wing_name sg rest : a_wings pl <> [] -> wingsegments pl = sg :: rest ->
    irregular (left_name sg) \/ (exists f, drawn_profile [left_name sg] f) /\ irregular (right_name sg) ->
    create_from_grid 50 (mm_grid X) (own_props pl X) = Err UnboundLocalError.
  Proof.
    intros Hw Hsg Hi. rewrite parts_of_create.
    destruct (machup_inv _ _ _ HX) as (HG & _). destruct (mm_grid X) as [g|]; [|congruence].
    destruct HG as [HG _]. pose proof (grid_well_sliced _ _ HG) as (W1 & _).
    pose proof (make_grid_spec _ _ HG) as (_ & _ & _ & Hseg & _).
    unfold grid_parts. rewrite Hseg, Hsg in *. destruct (g_slices g) as [|[a b] sl]; [discriminate|].
    cbn [combine wing_parts]. cbv zeta. unfold end_names.
    assert (HE : lr_of_side (sg_side sg) (sg_root_af sg) (sg_tip_af sg)
                 = (match sg_side sg with SLeft => sg_tip_af sg | SRight => sg_root_af sg end,
                    match sg_side sg with SLeft => sg_root_af sg | SRight => sg_tip_af sg end)).
    { unfold lr_of_side. destruct (sg_side sg); reflexivity. }
    rewrite HE. cbn [fst snd]. fold (left_name sg). fold (right_name sg).
    destruct Hi as [Hi|[[f Hf] Hi]].
    - rewrite (naca_irregular _ _ Hi). reflexivity.
    - change (naca_of None (left_name sg)) with (value_after [left_name sg]).
      destruct (outline_drawn _ _ Hf) as (l & -> & _). cbn [rbind].
      rewrite (naca_irregular _ _ Hi). reflexivity.
  Qed.
  Lemma first_blade_name : exists afs,
    Forall2 (fun q a => blade_airfoils (fst q) (map (@z_zeta R) (pg_stations (snd q))) a) (own_props pl X) afs /\
    forall wl wr x name rest more,
      (a_wings pl <> [] ->
         Forall2 drawn_profile (histories [] (map left_name (wingsegments pl))) wl /\
         Forall2 drawn_profile (histories [] (map right_name (wingsegments pl))) wr) ->
      afs = ((x, name) :: rest) :: more -> irregular name ->
      create_from_grid 50 (mm_grid X) (own_props pl X) = Err UnboundLocalError.
  Proof.
    destruct (machup_inv _ _ _ HX) as (HG & _ & u & pts & HQ & HL).
    destruct (span_lists _ _ _ _ HQ) as [afs HA]. exists afs. split.
    { refine (f2_impl _ _ _ _ _ HA). intros q a. apply span_list_airfoils. }
    intros wl wr x name rest more HW -> Hi. rewrite parts_of_create.
    assert (Hw : exists w, grid_parts 50 (mm_grid X) = Ok w).
    { destruct (mm_grid X) as [g|]; [|now exists []].
      destruct HG as [HG Hw]. destruct (HW Hw) as [W1 W2].
      destruct (wing_drawing pl g wl wr HG W1 W2) as (w & Q1 & _). eauto. }
    destruct Hw as [w ->]. cbn [rbind].
    fold (own_props pl X) in HA. destruct (own_props pl X) as [|[p g] props]; [inversion HA|].
    inversion HA as [|? ? ? ? A1 A2]; subst. cbn [fst snd] in A1.
    cbn [prop_parts]. rewrite A1. cbn [rbind].
    cbn [blade_outlines]. cbv zeta. rewrite (naca_irregular _ _ Hi). reflexivity.
  Qed.
End Whole.

(** *** The pitch of the blades *)
(** The drawn chord line is pitched by twice the zero-lift angle too little. *)
Lemma drawn_blade_pitch E u wp (p : prop R) g z x i :
  make_pgeom E u wp p = Ok g -> 0 < pr_diameter p -> In z (pg_stations g) ->
  chord_angle (pe_table E) p (z_zeta z) x -> increment p i ->
  0 < z_zeta z -> - (PI / 2) < z_al0 z < PI / 2 -> - (PI / 2) < x - z_al0 z < PI / 2 ->
  z_beta z - z_al0 z = (x + i) - 2 * z_al0 z.
Proof. intros. rewrite (C54_lemma E u wp p g z x i); auto. ring. Qed.

(** the file of create_stl *)
Lemma stl_drawing (E : menv R) (pl : airplane R) X w mesh w' :
  make_machup E pl = Ok X -> List.length (m_ps (w_model w)) = List.length (mm_props X) ->
  create_stl E pl X w = (Ok (Some mesh), w') ->
  exists afs,
    Forall2 (fun q a => blade_airfoils (fst q) (map (@z_zeta R) (pg_stations (snd q))) a)
            (combine (map snd (a_props pl)) (mm_props X)) afs /\
    forall wl wr bl,
      (a_wings pl <> [] ->
         Forall2 drawn_profile (histories [] (map left_name (wingsegments pl))) wl /\
         Forall2 drawn_profile (histories [] (map right_name (wingsegments pl))) wr) ->
      Forall2 (fun a b => map fst a = map fst b) afs bl ->
      Forall2 drawn_profile (histories [] (map snd (concat afs))) (map snd (concat bl)) ->
      mesh = airplane_mesh (fun s => z_beta s - z_al0 s) (mm_grid X) (mm_props X) wl wr bl.
Proof.
  intros HX HL H. pose proof (create_stl_whole E pl X w _ _ HX HL H) as K.
  destruct (fst (mu_solve _ _ _ _ _)) as [t|e]; [|discriminate]. destruct K as [HS K].
  assert (K' : create_from_grid 50 (mm_grid X) (own_props pl X) = Ok mesh).
  { destruct (mm_grid X) as [g|]; [|destruct (mm_props X) eqn:Ep; [discriminate|]]; unfold own_props; rewrite ?Ep;
    destruct (create_from_grid _ _ _) as [m|]; cbn [rbind] in K; congruence. }
  assert (HK : Forall (fun g => (0 < pg_k g)%nat) (mm_props X)).
  { pose proof (create_whole E pl X HX HS) as C. unfold own_props in K'. rewrite K' in C.
    destruct C as (_ & bs & _ & C & _). clear - C. induction C; constructor; auto. destruct H as (_ & H & _). lia. }
  destruct (drawing E pl X HX HS HK) as (afs & A1 & A2). exists afs. split; [exact A1|].
  intros wl wr bl W B D. specialize (A2 wl wr bl W B D). congruence.
Qed.

(** The mesh with the pitch of the blades in terms of the input. *)
Lemma propeller_mesh_ext a b g pr : (forall z, In z (pg_stations g) -> a z = b z) -> propeller_mesh a g pr = propeller_mesh b g pr.
Proof.
  intros H. unfold propeller_mesh. apply flat_map_ext. intros k. f_equal. apply map_ext_in. intros z Hz. now rewrite (H z Hz).
Qed.
Lemma airplane_mesh_ext a b g props wl wr bl :
  (forall q z, In q props -> In z (pg_stations q) -> a z = b z) ->
  airplane_mesh a g props wl wr bl = airplane_mesh b g props wl wr bl.
Proof.
  intros H. unfold airplane_mesh. f_equal. f_equal. apply map_ext_in. intros [q pr] Hq. cbn [fst snd].
  apply propeller_mesh_ext. intros z. apply H. eapply in_combine_l. exact Hq.
Qed.
Lemma stl_drawn_pitch (E : menv R) (pl : airplane R) X w mesh w' (angle : station R -> R) :
  make_machup E pl = Ok X -> List.length (m_ps (w_model w)) = List.length (mm_props X) ->
  create_stl E pl X w = (Ok (Some mesh), w') ->
  (forall p g z, In (p, g) (combine (map snd (a_props pl)) (mm_props X)) -> In z (pg_stations g) ->
     exists x i, chord_angle (pe_table (me_prop E)) p (z_zeta z) x /\ increment p i /\ 0 < pr_diameter p /\
       0 < z_zeta z /\ - (PI / 2) < z_al0 z < PI / 2 /\ - (PI / 2) < x - z_al0 z < PI / 2 /\
       angle z = (x + i) - 2 * z_al0 z) ->
  exists afs,
    Forall2 (fun q a => blade_airfoils (fst q) (map (@z_zeta R) (pg_stations (snd q))) a)
            (combine (map snd (a_props pl)) (mm_props X)) afs /\
    forall wl wr bl,
      (a_wings pl <> [] ->
         Forall2 drawn_profile (histories [] (map left_name (wingsegments pl))) wl /\
         Forall2 drawn_profile (histories [] (map right_name (wingsegments pl))) wr) ->
      Forall2 (fun a b => map fst a = map fst b) afs bl ->
      Forall2 drawn_profile (histories [] (map snd (concat afs))) (map snd (concat bl)) ->
      mesh = airplane_mesh angle (mm_grid X) (mm_props X) wl wr bl.
Proof.
  intros HX HL H HA. destruct (stl_drawing E pl X w mesh w' HX HL H) as (afs & A1 & A2). exists afs. split; [exact A1|].
  intros wl wr bl W B D. rewrite (A2 wl wr bl W B D). apply airplane_mesh_ext. intros g z Hg Hz.
  destruct (machup_inv _ _ _ HX) as (_ & _ & u & pts & HQ & HN).
  assert (K : exists p, In (p, g) (combine (map snd (a_props pl)) (mm_props X))).
  { assert (E1 : map snd (combine (map snd (a_props pl)) (mm_props X)) = mm_props X) by (apply combine_snd; rewrite HN; now rewrite map_length).
    rewrite <- E1 in Hg. apply in_map_iff in Hg. destruct Hg as ([p q] & <- & Hp). exists p. exact Hp. }
  destruct K as (p & Hp). destruct (HA p g z Hp Hz) as (x & i & C1 & C2 & C3 & C4 & C5 & C6 & ->).
  pose proof (proj1 (Forall_forall _ _) HQ _ Hp) as Q. unfold paired in Q. cbn [fst snd] in Q.
  eapply drawn_blade_pitch; eauto.
Qed.
