(** An airplane to draw: a main wing with two NACA sections, a tail whose airfoil name is
    irregular, and the propeller of Prop_thm6.v. *)
From Coq Require Import Reals ZArith String Ascii Bool Arith List Lra Lia.
From Verif Require Import Base Num RVec Geometry Api Grid LLModel Spec_Grid Spec_Geom Grid_R Grid_facts PropModel MU
     Spec_Prop Prop_thm6 Spec_LL MU_thm13 Demo Demo_MU Stl Spec_Stl Stl_thm2 Stl_thm3 Stl_thm5.
Import ListNotations.
Local Open Scope string_scope.

Section Sketch.
  Context {T : Type} {N : num_ops T}.
  Definition sketch_calls (tip : string) : list (api_call T) :=
    [ CAddWing "main" (None, "tip") "both"
        [("semispan", VInt 4); ("root_chord", VInt 2); ("tip_chord", VInt 1); ("sweep", VInt 10);
         ("dihedral", VInt 5); ("washout", VInt 2); ("mount_angle", VInt 1); ("grid", VInt 3)];
      CAirfoil 0 "NACA4415" "root" demo_airfoil_props;
      CAirfoil 0 tip "tip" demo_airfoil_props;
      CAddWing "tail" (None, "tip") "both"
        [("semispan", VInt 1); ("position", VList [VInt (-5); VInt 0; VInt 0]); ("grid", VInt 2);
         ("is_main", VInt 0)];
      CAirfoil 1 "NACA_0012" "both" demo_airfoil_props ].
  Definition sketch_wings (tip : string) : airplane T := run_calls (sketch_calls tip) (new_airplane "sketch" None).
  Definition sketch_val (tip : string) : airplane T := Eval cbv -[nint ndec n0 n1 vzero] in sketch_wings tip.
  Lemma sketch_eq tip : sketch_wings tip = sketch_val tip.
  Proof. vm_compute. reflexivity. Qed.
  Definition sketch (p : prop T) (tip : string) : airplane T :=
    MkAirplane "sketch" (a_wings (sketch_val tip)) (a_store (sketch_val tip)) [("main", p)] vzero
               None None None (Some (Some "English")).
  Lemma sketch_positioned p tip : Forall (positioned (sketch p tip)) (wingsegments (sketch p tip)).
  Proof. apply positioned_all. vm_compute. reflexivity. Qed.
  Lemma sketch_controls p tip : demo_controls (sketch p tip) = [(n0, n1); (n0, n1); (n0, n1); (n0, n1)].
  Proof. vm_compute. reflexivity. Qed.
  Lemma sketch_left p tip : map left_name (wingsegments (sketch p tip)) = [tip; "NACA4415"; "NACA_0012"; "NACA_0012"].
  Proof. vm_compute. reflexivity. Qed.
  Lemma sketch_right p tip : map right_name (wingsegments (sketch p tip)) = ["NACA4415"; tip; "NACA_0012"; "NACA_0012"].
  Proof. vm_compute. reflexivity. Qed.
  Lemma sketch_sizes p tip : map (@sg_num T) (wingsegments (sketch p tip)) = [3; 3; 2; 2]%nat.
  Proof. vm_compute. reflexivity. Qed.
End Sketch.

Local Open Scope R_scope.

Lemma sketch_made E tip : exists X, make_machup E (sketch demo_prop tip) = Ok X /\
  Forall (fun g => pg_stations g <> []) (mm_props X) /\ Forall (fun g => (0 < pg_k g)%nat) (mm_props X) /\
  exists g, mm_props X = [g] /\ pg_k g = 2%nat /\ List.length (pg_stations g) = 2%nat.
Proof.
  destruct (grid_ok true (sketch demo_prop tip)) as [g Hg].
  { apply sketch_positioned. }
  { rewrite sketch_controls. repeat constructor; cbn [fst snd]; rnum; lra. }
  destruct (demo_make (me_prop E) (Some "English") (Some (map (@s_r R) (g_sections g)))) as (q & Hq & Hl & _).
  assert (Hk : pg_k q = 2%nat).
  { destruct (pgeom_stations _ _ _ _ _ Hq) as (_ & _ & _ & -> & _). reflexivity. }
  exists (MkMU (Some g) (Some (make_refs (sketch demo_prop tip) g)) [q] (Some (List.length (map (@s_r R) (g_sections g)))) vzero).
  split; [|split; [|split]].
  - unfold make_machup. assert (Ew : a_wings (sketch demo_prop tip) <> []) by discriminate.
    destruct (a_wings (sketch demo_prop tip)) as [|w ws]; [congruence|]. rewrite Hg. cbn [rbind option_map].
    change (a_props (sketch demo_prop tip)) with [("main", demo_prop)]. cbv iota.
    replace (make_props (me_prop E) (sketch demo_prop tip) (Some (map (@s_r R) (g_sections g))))
      with (@Ok (list (pgeom R)) [q]).
    + reflexivity.
    + unfold make_props. change (map snd (a_props (sketch demo_prop tip))) with [demo_prop].
      change (get_units (sketch demo_prop tip)) with (@Ok (option string) (Some "English")).
      cbn [rbind rmap]. rewrite Hq. reflexivity.
  - cbn [mm_props]. constructor; [|constructor]. intros E0. rewrite E0 in Hl. discriminate.
  - cbn [mm_props]. constructor; [|constructor]. rewrite Hk. lia.
  - cbn [mm_props]. eauto.
Qed.

(** 4415 and 0009, and the digits 2412 of other names *)
Definition p4415 := MkProfile (INR 4 / 100) (INR 4 / 10) (INR (10 * 1 + 5) / 100).
Definition p0009 := MkProfile (INR 0 / 100) (INR 0 / 10) (INR (10 * 0 + 9) / 100).
Definition p2412 := MkProfile (INR 2 / 100) (INR 4 / 10) (INR (10 * 1 + 2) / 100).
Lemma d4415 : four_digits "4415" p4415.
Proof. exact (four_digits_intro (a := 4) (b := 4) (c := 1) (d := 5) ltac:(lia) ltac:(lia) ltac:(lia) ltac:(lia)). Qed.
Lemma d0009 : four_digits "0009" p0009.
Proof. exact (four_digits_intro (a := 0) (b := 0) (c := 0) (d := 9) ltac:(lia) ltac:(lia) ltac:(lia) ltac:(lia)). Qed.
Lemma d2412 : four_digits "2412" p2412.
Proof. exact (four_digits_intro (a := 2) (b := 4) (c := 1) (d := 2) ltac:(lia) ltac:(lia) ltac:(lia) ltac:(lia)). Qed.

Lemma stands4415 h : drawn_profile ("NACA4415" :: h) p4415.
Proof. exists "4415". split; [|apply d4415]. apply drawn_own. apply own_digits; auto. Qed.
Lemma stands0009 h : drawn_profile ("naca0009" :: h) p0009.
Proof. exists "0009". split; [|apply d0009]. apply drawn_own. apply own_digits; auto. Qed.
Lemma stands2412 h : drawn_profile ("NACA2412" :: h) p2412.
Proof. exists "2412". split; [|apply d2412]. apply drawn_own. apply own_digits; auto. Qed.
Lemma irregular0012 : irregular "NACA_0012".
Proof. split; [exists "_0012"; auto|discriminate]. Qed.
Lemma irregular2410 : irregular "NACA_2410".
Proof. split; [exists "_2410"; auto|discriminate]. Qed.
Lemma again0012 h f : drawn_profile h f -> drawn_profile ("NACA_0012" :: h) f.
Proof. intros (d & H1 & H2). exists d. split; auto. apply drawn_older; auto. apply irregular0012. Qed.

Lemma sketch_profiles p :
  Forall2 drawn_profile (histories [] (map left_name (wingsegments (sketch p "naca0009")))) [p0009; p4415; p4415; p4415] /\
  Forall2 drawn_profile (histories [] (map right_name (wingsegments (sketch (T := R) p "naca0009")))) [p4415; p0009; p0009; p0009].
Proof.
  rewrite sketch_left, sketch_right. cbn [histories]. split; repeat constructor;
  repeat first [apply stands4415 | apply stands0009 | apply again0012].
Qed.

(** Drawing the wings: the solve of create_stl returns *)
Lemma wings_solve (X : machup R) g m fs log : mm_grid X = Some g -> mm_props X = [] ->
  exists t, fst (mu_solve easy_env X None None (MkW None None m fs log)) = Ok t.
Proof.
  intros Hg Hp.
  destruct (solve_default easy_env X None None (MkW None None m fs log)) as [-> _]; [discriminate|reflexivity|].
  destruct (solve_given easy_env X None None (put_aero (Some default_aero) (MkW None None m fs log)) default_aero eq_refl)
    as (r & a' & s' & K & _ & _ & _ & -> & _). { left. discriminate. }
  unfold solve_parts in K. rewrite Hp, Hg in K. cbn [put_aero w_ctl w_model] in K.
  destruct (wings_answer (me_lsolve easy_env) g (mm_cg X) default_aero None (m_ll m)) as (l & res & A1 & A2).
  { discriminate. } { now right. }
  rewrite A1 in K. cbn [read_ref] in K. rewrite A2 in K. injection K as <- _ _. eexists. reflexivity.
Qed.
Lemma sketch_drawn : exists X mesh w',
  make_machup easy_env (sketch_val "naca0009") = Ok X /\ a_wings (sketch_val (T := R) "naca0009") <> [] /\
  create_stl easy_env (sketch_val "naca0009") X (MkW None None (init_mstate X) [] []) = (Ok (Some mesh), w') /\
  List.length mesh = 588%nat.
Proof.
  set (pl := sketch_val (T := R) "naca0009").
  destruct (grid_ok true pl) as [g Hg].
  { apply (sketch_positioned demo_prop "naca0009"). }
  { change (demo_controls pl) with (demo_controls (sketch demo_prop "naca0009")). rewrite sketch_controls.
    repeat constructor; cbn [fst snd]; rnum; lra. }
  set (X := MkMU (Some g) (Some (make_refs pl g)) [] (Some (List.length (map (@s_r R) (g_sections g)))) vzero).
  assert (HX : make_machup easy_env pl = Ok X).
  { unfold make_machup. assert (Ew : a_wings pl <> []) by discriminate.
    destruct (a_wings pl) as [|w ws]; [congruence|]. rewrite Hg. reflexivity. }
  destruct (drawing easy_env pl X HX (Forall_nil _) (Forall_nil _)) as (afs & A1 & A2).
  inversion A1; subst afs.
  specialize (A2 [p0009; p4415; p4415; p4415] [p4415; p0009; p0009; p0009] []).
  assert (HW : a_wings pl <> [] ->
    Forall2 drawn_profile (histories [] (map left_name (wingsegments pl))) [p0009; p4415; p4415; p4415] /\
    Forall2 drawn_profile (histories [] (map right_name (wingsegments pl))) [p4415; p0009; p0009; p0009]).
  { intros _. exact (sketch_profiles demo_prop). }
  specialize (A2 HW (Forall2_nil _) (Forall2_nil _)). unfold own_props in A2.
  destruct (wings_solve X g (init_mstate X) [] [] eq_refl eq_refl) as [t Ht].
  pose proof (create_whole easy_env pl X HX (Forall_nil _)) as C. rewrite A2 in C.
  destruct C as (_ & _ & _ & _ & _ & _ & C).
  destruct (mu_solve easy_env X None None (MkW None None (init_mstate X) [] [])) as [q w1] eqn:Es. cbn [fst] in Ht. subst q.
  eexists X, _, _. split; [exact HX|]. split; [discriminate|]. split.
  - unfold create_stl. cbn [w_model w_files w_log w_aero w_ctl].
    rewrite Es. cbn [mm_grid X mm_props]. change (mm_props X) with (@nil (pgeom R)) in A2. change (mm_grid X) with (Some g) in A2. rewrite A2. reflexivity.
  - unfold num_faces in C. cbn [mm_grid X mm_props map fold_right] in C.
    apply make_grid_spec in Hg. destruct Hg as (blocks & _ & Hn & Hseg & _).
    assert (Hs : num_sections pl = 10%nat) by (vm_compute; reflexivity).
    assert (Hl : List.length (wingsegments pl) = 4%nat) by (vm_compute; reflexivity).
    rewrite Hseg, Hn, Hs, Hl in C. apply Nat2Z.inj. exact C.
Qed.

Lemma slope_wrong : exists d f x l, four_digits d f /\ 0 < x < 1 /\
  derivable_pt_lim (mean_line f) x l /\ drawn_slope f x <> l.
Proof.
  exists "4415", p4415, (9 / 10), (2 * drawn_slope p4415 (9 / 10)). split; [apply d4415|]. split; [lra|].
  split; [apply slope_aft; unfold p4415; cbn; lra|].
  unfold drawn_slope, p4415. cbn [pf_camber pf_at]. simpl INR.
  destruct (Req_EM_T _ 0); [lra|]. destruct (Req_EM_T _ 0); [lra|]. destruct (Rlt_dec _ _); [lra|].
  intros H. assert (0 < (1 + 1 + 1 + 1) / 100 / ((1 - (1 + 1 + 1 + 1) / 10) * (1 - (1 + 1 + 1 + 1) / 10)) * (9 / 10 - (1 + 1 + 1 + 1) / 10)).
  { apply Rmult_lt_0_compat; [|lra]. apply Rdiv_lt_0_compat; lra. }
  lra.
Qed.
Lemma drawn_or_none names :
  (exists d, drawn names d /\ forall d', drawn names d' -> d' = d) /\ ~ Forall irregular names \/
  Forall irregular names /\ forall d, ~ drawn names d.
Proof.
  destruct (value_after names) as [d|] eqn:E.
  - left. split.
    + exists d. split; [now apply value_drawn|]. intros d' H. apply value_drawn in H. congruence.
    + intros H. apply value_none in H. congruence.
  - right. split; [now apply value_none|]. intros d H. apply value_drawn in H. congruence.
Qed.
Lemma pitch_wrong : exists E u wp (p : prop R) g z x i,
  make_pgeom E u wp p = Ok g /\ In z (pg_stations g) /\ chord_angle (pe_table E) p (z_zeta z) x /\ increment p i /\
  z_beta z - z_al0 z <> x + i.
Proof.
  destruct (demo_make demo_env None None) as (g & Hg & Hl & Hz).
  destruct (pg_stations g) as [|z zs] eqn:Es; [discriminate|].
  destruct (Hz z (or_introl eq_refl)) as (_ & Ha & _).
  assert (Hin : In z (pg_stations g)) by (rewrite Es; now left).
  destruct (demo_stations _ _ _ _ Hg z Hin) as (_ & _ & Hb).
  exists demo_env, None, None, demo_prop, g, z, (atan ((1 / 2) / (PI * z_zeta z))), 0.
  split; [exact Hg|]. split; [exact Hin|]. split; [apply CA_default; reflexivity|]. split; [apply IN_none; reflexivity|].
  rewrite Hb, Ha. lra.
Qed.
Lemma outline_gap d f l : four_digits d f -> outline (T := R) d 50 = Ok l ->
  let first := nth 0 l (0, 0) in let last := nth 49 l (0, 0) in
  (fst last - fst first) * (fst last - fst first) + (snd last - snd first) * (snd last - snd first)
  = (21 / 1000 * pf_thick f) * (21 / 1000 * pf_thick f).
Proof.
  intros Hd Hl. destruct (outline_shape d f Hd) as (l' & H1 & _ & H2). assert (l' = l) by congruence. subst l'.
  destruct (H2 0%nat ltac:(lia)) as [A1 A2]. destruct (H2 49%nat ltac:(lia)) as [B1 B2]. cbv zeta.
  rewrite A1, A2, B1, B2.
  assert (Hp : pf_at f < 1).
  { inversion Hd; subst. cbn [pf_at]. assert (INR b < 10) by (replace 10 with (INR 10) by (simpl; ring); now apply lt_INR). lra. }
  assert (Ht : 0 <= pf_thick f).
  { inversion Hd; subst. cbn [pf_thick]. pose proof (pos_INR (10 * c + d0)). lra. }
  pose proof (edge_gap f Ht Hp) as G. cbv zeta in G. rewrite <- G. ring.
Qed.
