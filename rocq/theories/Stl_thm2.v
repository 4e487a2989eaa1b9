(** Names, failures and the solve before the drawing (C57, C60).  Generic in the number type. *)
From Coq Require Import ZArith String Ascii Bool Arith Lia List.
From Verif Require Import Base Num Geometry Grid Spec_Grid Grid_facts Grid_props LLModel PropModel MU Stl Spec_Stl Stl_thm.
Import ListNotations.
Local Open Scope string_scope.

(** *** Names *)
Lemma prefix_split a s : String.length a = 4%nat -> substring 0 4 s = a -> exists r, s = a ++ r.
Proof.
  intros Ha H. destruct s as [|c0 s]; [subst; discriminate|].
  destruct s as [|c1 s]; [subst; discriminate|].
  destruct s as [|c2 s]; [subst; discriminate|].
  destruct s as [|c3 s]; [subst; discriminate|].
  exists s. rewrite <- H. simpl. destruct s; reflexivity.
Qed.
Lemma sub04 a r : String.length a = 4%nat -> substring 0 4 (a ++ r) = a.
Proof.
  destruct a as [|a0 [|a1 [|a2 [|a3 [|a4 a]]]]]; simpl; intros H; try discriminate.
  destruct r; reflexivity.
Qed.
Lemma substring_all s : substring 0 (String.length s) s = s.
Proof. induction s; simpl; congruence. Qed.
Lemma sub44 a r : String.length a = 4%nat -> String.length r = 4%nat -> substring 4 4 (a ++ r) = r.
Proof.
  destruct a as [|a0 [|a1 [|a2 [|a3 [|a4 a]]]]]; intros H Hr; try discriminate.
  change (substring 0 4 r = r). rewrite <- Hr. apply substring_all.
Qed.
Lemma length_app a r : String.length (a ++ r) = (String.length a + String.length r)%nat.
Proof. induction a; simpl; congruence. Qed.

Lemma naca_dec name :
  (String.eqb (substring 0 4 name) "NACA" || String.eqb (substring 0 4 name) "naca") = true <-> naca_name name.
Proof.
  split.
  - intros H. apply orb_prop in H. destruct H as [H|H]; apply String.eqb_eq in H.
    + destruct (prefix_split "NACA" name) as [r ->]; auto. exists r; auto.
    + destruct (prefix_split "naca" name) as [r ->]; auto. exists r; auto.
  - intros [r [-> | ->]]; rewrite sub04 by reflexivity; reflexivity.
Qed.

Lemma naca_stands prev name d : stands_for name d -> naca_of prev name = Some d.
Proof.
  intros H. unfold naca_of. inversion H as [n r Hn Hr|n Hn]; subst.
  - assert (HN : naca_name name) by (exists d; auto).
    apply naca_dec in HN. cbv zeta. rewrite HN.
    assert (HL : String.length name = 8%nat).
    { destruct Hn as [-> | ->]; rewrite length_app, Hr; reflexivity. }
    rewrite HL, Nat.eqb_refl. f_equal. destruct Hn as [-> | ->]; apply sub44; auto.
  - cbv zeta. destruct (_ || _) eqn:E; auto. apply naca_dec in E. contradiction.
Qed.
Lemma naca_irregular prev name : irregular name -> naca_of prev name = prev.
Proof.
  intros [H1 H2]. unfold naca_of. cbv zeta. apply naca_dec in H1. rewrite H1.
  apply Nat.eqb_neq in H2. now rewrite H2.
Qed.
Lemma name_cases name : (exists d, stands_for name d) \/ irregular name.
Proof.
  destruct (String.eqb (substring 0 4 name) "NACA" || String.eqb (substring 0 4 name) "naca") eqn:E.
  - apply naca_dec in E. destruct (Nat.eq_dec (String.length name) 8) as [H|H]; [left|right; split; auto].
    destruct E as [r Hr]. exists r. apply own_digits; auto.
    destruct Hr as [-> | ->]; rewrite length_app in H; simpl in H; lia.
  - left. exists "2412". apply other_name. intros H. apply naca_dec in H. congruence.
Qed.
Lemma stands_not_irregular name d : stands_for name d -> irregular name -> False.
Proof.
  intros H [H1 H2]. inversion H as [n r Hn Hr|n Hn]; subst; auto.
  apply H2. destruct Hn as [-> | ->]; rewrite length_app, Hr; reflexivity.
Qed.

(** the value of the variable after a history *)
Definition value_after (h : list string) : option string :=
  fold_right (fun name prev => naca_of prev name) None h.
Lemma value_drawn h d : value_after h = Some d <-> drawn h d.
Proof.
  revert d. induction h as [|name h IH]; intros d.
  - split; [discriminate|inversion 1].
  - simpl. destruct (name_cases name) as [[d' Hd]|Hi].
    + rewrite (naca_stands _ _ _ Hd). split.
      * intros E; injection E as <-. now apply drawn_own.
      * intros E. inversion E; subst.
        -- rewrite <- (naca_stands None _ _ Hd). now apply naca_stands.
        -- exfalso; eapply stands_not_irregular; eauto.
    + rewrite (naca_irregular _ _ Hi), IH. split.
      * intros E. now apply drawn_older.
      * intros E. inversion E; subst; auto. exfalso; eapply stands_not_irregular; eauto.
Qed.
Lemma drawn_length h d : drawn h d -> String.length d = 4%nat.
Proof. induction 1; auto. inversion H; subst; auto. Qed.
Lemma value_none h : value_after h = None <-> Forall irregular h.
Proof.
  induction h as [|name h IH]; simpl; [split; auto|].
  destruct (name_cases name) as [[d' Hd]|Hi].
  - rewrite (naca_stands _ _ _ Hd). split; [discriminate|]. intros H; inversion H; subst.
    exfalso; eapply stands_not_irregular; eauto.
  - rewrite (naca_irregular _ _ Hi), IH. split; [constructor; auto|inversion 1; auto].
Qed.

Section Names.
  Context {T : Type} {N : num_ops T}.

  Lemma outline_error s n e : String.length s = 4%nat -> outline (T := T) s n = Err e -> e = ValueError.
  Proof.
    intros Hs. unfold outline, char_at, to_float. rewrite Hs. cbn [Nat.ltb Nat.leb rbind].
    destruct (py_float (substring 0 1 s)) as [[m0 e0]|]; cbn [rbind]; [|congruence].
    destruct (py_float (substring 1 1 s)) as [[m1 e1]|]; cbn [rbind]; [|congruence].
    destruct (py_float (substring 2 2 s)) as [[m2 e2]|]; cbn [rbind]; congruence.
  Qed.
  Lemma outline_of_error h n e : outline_of (T := T) (value_after h) n = Err e ->
    e = UnboundLocalError /\ Forall irregular h \/ e = ValueError.
  Proof.
    destruct (value_after h) as [d|] eqn:E; simpl.
    - intros H. right. eapply outline_error; eauto. apply value_drawn in E. eapply drawn_length; eauto.
    - intros H. left. split; [congruence|]. now apply value_none.
  Qed.

  Lemma wing_parts_error n sections segs hl hr e :
    wing_parts (T := T) n sections segs (value_after hl, value_after hr) = Err e ->
    e = UnboundLocalError \/ e = ValueError.
  Proof.
    revert hl hr. induction segs as [|[sg [a b]] rest IH]; intros hl hr; [discriminate|].
    cbn [wing_parts]. cbv zeta. unfold end_names.
    destruct (lr_of_side (sg_side sg) (sg_root_af sg) (sg_tip_af sg)) as [al ar]. cbn [fst snd].
    change (naca_of (value_after hl) (af_name al)) with (value_after (af_name al :: hl)).
    change (naca_of (value_after hr) (af_name ar)) with (value_after (af_name ar :: hr)).
    destruct (outline_of (value_after (af_name al :: hl)) n) as [l|x] eqn:El; cbn [rbind].
    2:{ intros H; injection H as <-. apply outline_of_error in El. tauto. }
    destruct (outline_of (value_after (af_name ar :: hr)) n) as [r|x] eqn:Er; cbn [rbind].
    2:{ intros H; injection H as <-. apply outline_of_error in Er. tauto. }
    destruct (wing_parts n sections rest _) as [more|x] eqn:Em; cbn [rbind]; [discriminate|].
    intros H; injection H as <-. eapply IH; eauto.
  Qed.

  Lemma blade_outlines_error n afs h e :
    blade_outlines (T := T) n afs (value_after h) = Err e -> e = UnboundLocalError \/ e = ValueError.
  Proof.
    revert h. induction afs as [|[loc name] afs IH]; intros h; [discriminate|].
    cbn [blade_outlines]. cbv zeta.
    change (naca_of (value_after h) name) with (value_after (name :: h)).
    destruct (outline_of (value_after (name :: h)) n) as [l|x] eqn:El; cbn [rbind].
    2:{ intros H; injection H as <-. apply outline_of_error in El. tauto. }
    destruct (blade_outlines n afs _) as [[m v]|x] eqn:Em; cbn [rbind]; [discriminate|].
    intros H; injection H as <-. eapply IH; eauto.
  Qed.
  Lemma blade_outlines_value n afs h outs v :
    blade_outlines (T := T) n afs (value_after h) = Ok (outs, v) -> v = value_after (rev (map snd afs) ++ h).
  Proof.
    revert h outs v. induction afs as [|[loc name] afs IH]; intros h outs v.
    - intros H; injection H as <- <-. reflexivity.
    - cbn [blade_outlines]. cbv zeta.
      change (naca_of (value_after h) name) with (value_after (name :: h)).
      destruct (outline_of (value_after (name :: h)) n) as [l|x]; cbn [rbind]; [|discriminate].
      destruct (blade_outlines n afs _) as [[m v']|x] eqn:Em; cbn [rbind]; [|discriminate].
      intros H; injection H as <- <-. apply IH in Em. rewrite Em. f_equal.
      cbn [map snd rev]. now rewrite <- app_assoc.
  Qed.

  (** the propellers of the model are those of the airplane *)
  Definition paired (M : penv T) (u : option string) pts (q : prop T * pgeom T) : Prop :=
    make_pgeom M u pts (fst q) = Ok (snd q).
  Lemma pgeom_stations M u pts p g : make_pgeom M u pts p = Ok g ->
    exists zs, zetas p = Ok zs /\ map (@z_zeta T) (pg_stations g) = zs /\ pg_k g = pr_blades p /\
               exists c, PropModel.coefficients p zs = Ok c.
  Proof.
    unfold make_pgeom. destruct (zetas p) as [zs|]; cbn [rbind]; [|discriminate]. cbv zeta.
    destruct (PropModel.coefficients p zs) as [c|] eqn:Ec; cbn [rbind]; [|discriminate].
    destruct (pitch M p) as [b|]; cbn [rbind]; [|discriminate].
    destruct (chord M p zs) as [cb|]; cbn [rbind]; [|discriminate].
    destruct (make_motor p) as [m|]; cbn [rbind]; [|discriminate].
    intros H; injection H as <-. exists zs. split; [reflexivity|]. split; [|split; [reflexivity|eauto]].
    cbn [pg_stations]. rewrite map_map. rewrite <- (map_id zs) at 2. apply map_ext. reflexivity.
  Qed.
  Lemma span_list_ok p zs c : PropModel.coefficients (T := T) p zs = Ok c -> exists l, span_list p zs = Ok l.
  Proof.
    unfold PropModel.coefficients, span_list. destruct (map snd (pr_airfoils p)) as [|a [|a' l]]; eauto.
    destruct (rmap (span_of zs) (a :: a' :: l)) as [x|]; cbn [rbind]; [|discriminate].
    destruct (sort_span x) as [y|]; cbn [rbind]; [|discriminate]. eauto.
  Qed.

  Lemma prop_parts_error M u pts n props h e :
    Forall (paired M u pts) props ->
    prop_parts (T := T) n props (value_after h) = Err e ->
    e = UnboundLocalError \/ e = ValueError \/ e = ZeroDivisionError /\ exists q, In q props /\ pg_k (snd q) = 0%nat.
  Proof.
    intros Hp. revert h. induction props as [|[p g] props IH]; intros h; [discriminate|].
    cbn [prop_parts]. inversion Hp as [|? ? P1 P2]; subst. cbn [fst snd] in P1. unfold paired in P1. cbn [fst snd] in P1.
    destruct (pgeom_stations _ _ _ _ _ P1) as (zs & _ & -> & _ & c & Hc).
    destruct (span_list_ok _ _ _ Hc) as [l ->]. cbn [rbind].
    destruct (blade_outlines n l _) as [[outs v]|x] eqn:Eb; cbn [rbind].
    2:{ intros H; injection H as <-. apply blade_outlines_error in Eb. tauto. }
    apply blade_outlines_value in Eb. subst v.
    destruct (Nat.eqb_spec (pg_k g) 0) as [Hk|Hk].
    { intros H; injection H as <-. right; right. split; auto. exists (p, g). split; [now left|auto]. }
    destruct (prop_parts n props _) as [more|x] eqn:Em; cbn [rbind]; [discriminate|].
    intros H; injection H as <-. destruct (IH P2 _ Em) as [H|[H|(H & q & Hq & Hq')]]; auto.
    right; right. split; auto. exists q. split; auto. now right.
  Qed.

  (** *** The grid of a MachUp object *)
  Lemma consecutive_sliced sections sizes start (segs : list (segment T)) :
    map (@sg_num T) segs = sizes -> Forall (fun sg => 0 < sg_num sg)%nat segs ->
    (start + list_sum sizes <= List.length sections)%nat ->
    Forall (sliced sections) (combine segs (consecutive start sizes)).
  Proof.
    intros <-. revert start. induction segs as [|sg segs IH]; intros start Hs Hl; [constructor|].
    cbn [map consecutive combine]. inversion Hs; subst.
    change (list_sum (map (@sg_num T) (sg :: segs))) with (sg_num sg + list_sum (map (@sg_num T) segs))%nat in Hl.
    constructor; [|apply IH; auto; lia].
    unfold sliced; cbn [fst snd]. lia.
  Qed.
  Lemma block_pos (pl : airplane T) sg b : segment_block true pl sg = Ok b -> (0 < sg_num sg)%nat.
  Proof.
    unfold segment_block. cbn [andb]. destruct (Nat.eqb_spec (sg_num sg) 0); [discriminate|lia].
  Qed.
  Lemma grid_well_sliced (pl : airplane T) g : make_grid true pl = Ok g -> well_sliced g.
  Proof.
    intros Hg. pose proof (grid_bookkeeping _ _ _ _ _ Hg) as (B1 & B2 & B3 & B4 & _).
    apply make_grid_spec in Hg. destruct Hg as (blocks & HF & Hn & Hseg & Hsl & Hsec & _).
    split; [|split].
    - rewrite B4. now rewrite Hseg.
    - rewrite Hseg. congruence.
    - rewrite Hseg, Hsl. apply consecutive_sliced; auto.
      + clear - HF. induction HF; constructor; auto. eapply block_pos; eauto.
      + rewrite B1, B3. lia.
  Qed.

  Lemma machup_inv M (pl : airplane T) X : make_machup M pl = Ok X ->
    match mm_grid X with Some g => make_grid true pl = Ok g /\ a_wings pl <> [] | None => a_wings pl = [] end /\
    (mm_props X = [] <-> a_props pl = []) /\
    exists u pts, Forall (paired (me_prop M) u pts) (combine (map snd (a_props pl)) (mm_props X)) /\
                  List.length (mm_props X) = List.length (a_props pl).
  Proof.
    intros H. unfold make_machup in H.
    assert (HW : exists wings, (match a_wings pl with [] => Ok None | _ => rlet g := make_grid true pl in Ok (Some g) end) = Ok wings /\
       match wings with Some g => make_grid true pl = Ok g /\ a_wings pl <> [] | None => a_wings pl = [] end).
    { destruct (a_wings pl) eqn:Ew.
      - exists None; auto.
      - destruct (make_grid true pl) as [g|]; [|discriminate H]. exists (Some g). split; auto. split; auto. discriminate. }
    destruct HW as (wings & HW1 & HW2). rewrite HW1 in H. cbn [rbind] in H.
    assert (HP : exists ps, (match a_props pl with [] => Ok [] | _ =>
        make_props (me_prop M) pl (option_map (fun g => map (@s_r T) (g_sections g)) wings) end) = Ok ps /\
        X = MkMU wings (option_map (make_refs pl) wings) ps (option_map (@List.length _) (option_map (fun g => map (@s_r T) (g_sections g)) wings)) (a_cg pl)).
    { cbv zeta in H. destruct (match a_props pl with [] => _ | _ => _ end) as [ps|]; [|discriminate].
      cbn [rbind] in H. injection H as <-. eauto. }
    destruct HP as (ps & HP & ->). cbn [mm_grid mm_props]. split; [exact HW2|].
    set (pts := option_map (fun g => map (@s_r T) (g_sections g)) wings) in *. clearbody pts. clear - HP.
    assert (G : forall (f : prop T -> res (pgeom T)) (l : list (prop T)) ps, rmap f l = Ok ps -> Forall (fun q => f (fst q) = Ok (snd q)) (combine l ps) /\ List.length ps = List.length l).
    { clear. intros f l. induction l as [|x l IH]; intros ps H; simpl in H.
      - injection H as <-. split; constructor.
      - destruct (f x) as [y|] eqn:E; [|discriminate]. cbn [rbind] in H.
        destruct (rmap f l) as [ys|]; [|discriminate]. injection H as <-.
        destruct (IH ys eq_refl). split; [constructor; auto|simpl; congruence]. }
    destruct (a_props pl) as [|p0 l0] eqn:Ep.
    - injection HP as <-. split; [tauto|]. exists None, pts. split; [constructor|reflexivity].
    - unfold make_props in HP. rewrite Ep in HP. apply G in HP. destruct HP as [H1 H2].
      split.
      { split; intros E; [subst; discriminate|discriminate]. }
      destruct (get_units pl) as [u|] eqn:Eu.
      + exists u, pts. split; [|rewrite H2; now rewrite map_length].
        revert H1. apply Forall_impl. intros q Hq. exact Hq.
      + exists None, pts. destruct ps; [discriminate|]. inversion H1; subst. discriminate.
  Qed.

  (** *** A successful solve needs stations *)
  Lemma run_prop_stations E cg aero (g : pgeom T) s q s' :
    run_prop E cg aero None g s = (Ok q, s') -> pg_stations g <> [].
  Proof.
    unfold run_prop. cbn [local_state p_set_prop]. unfold default_op, sbind.
    destruct (p_set_aero aero s) as [[[]|e] s1]; [|discriminate].
    unfold sget, slift, smod. destruct (pydiv (p_Vinf s1) _) as [n|]; [|discriminate].
    unfold p_calc_forces, sbind, sget. cbn [set_op p_power p_throttle].
    intros H Hs. unfold find_coefficients in H. rewrite Hs in H. cbn [last_of nth_error List.length] in H.
    discriminate.
  Qed.
  Lemma run_props_stations E cg aero (gs : list (pgeom T)) ss qs ss' :
    List.length ss = List.length gs -> run_props E cg aero None gs ss = (Ok qs, ss') ->
    Forall (fun g => pg_stations g <> []) gs.
  Proof.
    revert ss qs ss'. induction gs as [|g gs IH]; intros [|s ss] qs ss' HL H; try discriminate; [constructor|].
    cbn [run_props] in H. destruct (run_prop E cg aero None g s) as [[q|] s1] eqn:E1; [|discriminate].
    destruct (run_props E cg aero None gs ss) as [[qs'|] ss1] eqn:E2; [|discriminate].
    constructor; [eapply run_prop_stations; eauto|]. eapply IH; eauto.
  Qed.
  Lemma solve_stations (E : menv T) X f w r w' :
    List.length (m_ps (w_model w)) = List.length (mm_props X) -> w_aero w = None ->
    mu_solve E X None f w = (Ok r, w') -> Forall (fun g => pg_stations g <> []) (mm_props X).
  Proof.
    intros HL Ha. unfold mu_solve. rewrite Ha. cbn [opt_truthy].
    unfold sbind, do_solve, aero_given. rewrite Ha. cbn [opt_truthy].
    unfold with_aero, raw_solve. cbn [put_aero w_aero w_model w_ctl].
    unfold host_of. cbn [h_solve]. unfold solve_parts.
    destruct (mm_props X) as [|g gs]; [constructor|].
    destruct (props_solve (me_prop E) (mm_cg X) (mm_points X) (Some default_aero) None (g :: gs) (m_ps (w_model w)))
      as [[[pt rows]|e] ss] eqn:Ep; [|discriminate].
    intros _. unfold props_solve, sbind in Ep.
    destruct (calc_forces (me_prop E) (mm_cg X) (Some default_aero) None (g :: gs) (m_ps (w_model w))) as [[pt'|] ss'] eqn:Ec; [|discriminate].
    unfold calc_forces in Ec.
    destruct (run_props (me_prop E) (mm_cg X) (Some default_aero) None (g :: gs) (m_ps (w_model w))) as [[qs|] ss''] eqn:Er; [|discriminate].
    eapply run_props_stations; eauto.
  Qed.
End Names.

Section Create.
  Context {T : Type} {N : num_ops T}.

  (** the mesh of an airplane, and what can go wrong *)
  Lemma create_whole (E : menv T) (pl : airplane T) X :
    make_machup E pl = Ok X -> Forall (fun g => pg_stations g <> []) (mm_props X) ->
    match create_from_grid 50 (mm_grid X) (combine (map snd (a_props pl)) (mm_props X)) with
    | Ok mesh =>
        exists wings blades,
          Forall2 (fun sg rows => rectangular (sg_num sg) 50 rows)
                  (match mm_grid X with Some g => g_segments g | None => [] end) wings /\
          Forall2 (fun g bs => List.length bs = pg_k g /\ (1 <= pg_k g)%nat /\
                               Forall (rectangular (List.length (pg_stations g)) 50) bs) (mm_props X) blades /\
          mesh = (flat_map (surface false) wings ++
                  concat (map2 (fun g bs => flat_map (surface (negb (neqb (pg_rot g) n1))) bs) (mm_props X) blades))%list /\
          all_writes 50 (mm_grid X) (combine (map snd (a_props pl)) (mm_props X)) = Ok (stores 0 mesh) /\
          Z.of_nat (List.length mesh) = num_faces 50 (mm_grid X) (mm_props X)
    | Err e => e = UnboundLocalError \/ e = ValueError \/
               e = ZeroDivisionError /\ exists g, In g (mm_props X) /\ pg_k g = 0%nat
    end.
  Proof.
    intros HX HS. destruct (machup_inv _ _ _ HX) as (HG & HP & u & pts & HQ & HL).
    set (props := combine (map snd (a_props pl)) (mm_props X)) in *.
    assert (Hsnd : map snd props = mm_props X).
    { subst props. clear - HL. revert HL. generalize (a_props pl). generalize (mm_props X).
      induction l as [|g l IH]; intros [|p ps] H; simpl in *; try discriminate; auto. f_equal. apply IH. lia. }
    assert (HS' : Forall (fun q : prop T * pgeom T => pg_stations (snd q) <> []) props).
    { rewrite <- Hsnd in HS. now rewrite Forall_map in HS. }
    assert (HW : match mm_grid X with Some g => well_sliced g | None => True end).
    { destruct (mm_grid X); auto. eapply grid_well_sliced; apply HG. }
    destruct (create_parts 50 (mm_grid X) props ltac:(lia) HW HS') as [C1 C2].
    rewrite C1, C2. clear C1 C2.
    destruct (grid_parts 50 (mm_grid X)) as [w|e] eqn:Ew; cbn [rbind].
    2:{ unfold grid_parts in Ew. destruct (mm_grid X) as [g|]; [|discriminate].
        change (@None string, @None string) with (value_after [], value_after []) in Ew.
        apply wing_parts_error in Ew. tauto. }
    destruct (prop_parts 50 props None) as [b|e] eqn:Eb; cbn [rbind].
    2:{ change (@None string) with (value_after []) in Eb. eapply prop_parts_error in Eb; eauto.
        destruct Eb as [Eb|[Eb|(Eb & q & H1 & H2)]]; auto. right; right. split; auto. exists (snd q).
        split; auto. rewrite <- Hsnd. now apply in_map. }
    destruct (prop_mesh_length 50 props None b ltac:(lia) HS' Eb) as [L1 L2].
    exists w, (map snd b). split; [|split; [|split; [|split]]].
    - unfold grid_parts in Ew. destruct (mm_grid X) as [g|].
      + destruct HW as (H1 & _ & H3). apply wing_parts_spec in Ew; auto. clear - H1 Ew. revert w H1 Ew.
        generalize (g_slices g). generalize (g_segments g).
        induction l as [|sg l IH]; intros [|sl sls] w H1 H2; simpl in *; try discriminate.
        * inversion H2. constructor.
        * inversion H2; subst. constructor; auto. eapply IH; eauto.
      + injection Ew as <-. constructor.
    - rewrite <- Hsnd. clear - L2. induction L2; simpl; constructor; auto. destruct H as (A & B & _ & C). auto.
    - f_equal. rewrite <- Hsnd. unfold prop_mesh. rewrite flat_map_concat_map. f_equal.
      clear - L2. induction L2; simpl; auto. destruct H as (_ & _ & C & _). rewrite C. f_equal; auto.
    - reflexivity.
    - rewrite app_length, Nat2Z.inj_add, L1, Hsnd. unfold num_faces. f_equal.
      destruct (mm_grid X) as [g|]; [eapply wing_mesh_length; eauto; lia|]. injection Ew as <-. reflexivity.
  Qed.

  Lemma create_stl_whole (E : menv T) (pl : airplane T) X w r w' :
    make_machup E pl = Ok X -> List.length (m_ps (w_model w)) = List.length (mm_props X) ->
    create_stl E pl X w = (r, w') ->
    match fst (mu_solve E X None None (MkW None None (w_model w) (w_files w) (w_log w))) with
    | Err e => r = Err e
    | Ok _ =>
        Forall (fun g => pg_stations g <> []) (mm_props X) /\
        match mm_grid X, mm_props X with
        | None, [] => r = Ok None
        | _, _ => r = (rlet m := create_from_grid 50 (mm_grid X) (combine (map snd (a_props pl)) (mm_props X)) in Ok (Some m))
        end
    end.
  Proof.
    intros HX HL H. unfold create_stl in H.
    destruct (mu_solve E X None None (MkW None None (w_model w) (w_files w) (w_log w))) as [[q|e] w1] eqn:Es; cbn [fst].
    - split; [eapply solve_stations; [| |exact Es]; auto|].
      destruct (mm_grid X), (mm_props X); congruence.
    - congruence.
  Qed.
End Create.
