(** Propellers in mirrored flight (C79). *)
From Coq Require Import Reals ZArith String Bool Arith Lia Lra List.
From Verif Require Import Base Num RVec Geometry Api Grid LLModel PropModel Spec_Grid Spec_Geom Spec_LL LL_state LL_R LL_solve
  Grid_facts Grid_thm Mirror LL_sym Spec_Mirror LL_mirror LL_mirror2 LL_mirror3 MU Spec_MirrorProp.
Import ListNotations.
Local Open Scope string_scope.
Local Open Scope R_scope.

Notation pst := (pstate R).
(** the state of the propeller seen in the mirror *)
Definition pmir (s : pst) : pst :=
  MkPS (p_clock s) (p_ei s) (p_n s) (p_J s) (p_power s) (p_throttle s) (mirror (p_v s)) (p_rho s) (p_Vinf s)
       (p_einf s) (p_alpha s) (p_CL s) (p_CD s) (p_CT s) (p_Cl s) (p_CNa s) (p_Cna s) (p_CP s) (p_eff s)
       (p_Vi s) (p_Vxi s) (p_Vti s) (p_T s) (- p_l s) (mirror (p_F s)) (vopp (mirror (p_M s))).
(** the same geometry seen in the mirror, and the same uninitialised memory *)
Record gmir (E : penv R) (pts : option (list (vec3 R))) (g g' : pgeom R) : Prop := {
  gm_mem : pe_mem E (pg_name g') = pe_mem E (pg_name g);
  gm_pos : pg_pos g' = mirror (pg_pos g);
  gm_d : pg_d g' = pg_d g;
  gm_forward : pg_forward g' = mirror (pg_forward g);
  gm_rot : pg_rot g' = - pg_rot g;
  gm_stations : pg_stations g' = pg_stations g;
  gm_k : pg_k g' = pg_k g;
  gm_motor : pg_motor g' = pg_motor g;
  gm_units : pg_units g' = pg_units g;
  gm_wing : pg_wing g = option_map (map (wing_point (pg_pos g) (pg_forward g) (pg_d g))) pts;
  gm_wing' : pg_wing g' = option_map (map (wing_point (pg_pos g') (pg_forward g') (pg_d g'))) pts
}.

(** mirrored airplanes whose propellers have names related by [Q] *)
Record maq (Q : string -> string -> Prop) (pl pl' : airplane R) : Prop := {
  mq_wings : a_wings pl' = a_wings pl /\ a_store pl' = a_store pl /\ a_position pl' = a_position pl;
  mq_lengths : a_lat_ref pl' = a_lat_ref pl /\ a_long_ref pl' = a_long_ref pl;
  mq_units : a_units pl' = a_units pl;
  mq_cg : a_cg pl' = mirror (a_cg pl);
  mq_props : Forall2 (fun e e' => Q (pr_name (snd e)) (pr_name (snd e')) /\ mirrored_prop (snd e) (snd e')) (a_props pl) (a_props pl')
}.

(** *** Construction *)
Lemma forward_mirror t h : forward_of t (nrad (- h)) = mirror (forward_of (T := R) t (nrad h)).
Proof.
  unfold forward_of, mirror. assert (E : nrad (- h) = - nrad (T := R) h) by (rnum; field). rewrite E. rnum.
  rewrite sin_neg, cos_neg. apply vec_eq; cbn [vx vy vz]; ring.
Qed.
Definition res_rel {A} (Q : A -> A -> Prop) (r r' : res A) : Prop :=
  match r, r' with Ok a, Ok a' => Q a a' | Err e, Err e' => e' = e | _, _ => False end.
Lemma make_pgeom_mirror (Q : string -> string -> Prop) E u pts p p' : Q (pr_name p) (pr_name p') ->
  (forall n n', Q n n' -> pe_mem E n' = pe_mem E n) -> mirrored_prop p p' ->
  res_rel (fun g g' => gmir E pts g g' /\ Q (pg_name g) (pg_name g')) (make_pgeom E u pts p) (make_pgeom E u pts p').
Proof.
  intros HQ Hmem []. unfold make_pgeom.
  assert (Ez : zetas p' = zetas p) by (unfold zetas; destruct mp_diameters as [E1 E2]; rewrite ?E1, ?E2, ?mp_nodes; reflexivity).
  assert (Ec : forall zs, coefficients p' zs = coefficients p zs).
  { intros zs. unfold coefficients. destruct mp_shape as (_ & _ & ->). reflexivity. }
  assert (Eb : pitch E p' = pitch E p).
  { unfold pitch. destruct mp_shape as (-> & _ & _). destruct mp_diameters as [E1 E2]. rewrite ?E1, ?E2. reflexivity. }
  assert (Eh : forall zs, chord E p' zs = chord E p zs).
  { intros zs. unfold chord. destruct mp_shape as (_ & -> & _). destruct mp_diameters as [E1 E2]. rewrite ?E1, ?E2, ?mp_blades. reflexivity. }
  assert (Em : make_motor p' = make_motor p) by (unfold make_motor; rewrite mp_motor; reflexivity).
  rewrite Ez. destruct (zetas p) as [zs|e]; [|reflexivity]. unfold rbind. rewrite Ec.
  destruct (coefficients p zs) as [c|e]; [|reflexivity]. rewrite Eb. destruct (pitch E p) as [b|e]; [|reflexivity].
  rewrite Eh. destruct (chord E p zs) as [cb|e]; [|reflexivity]. rewrite Em. destruct (make_motor p) as [mo|e]; [|reflexivity].
  cbn [res_rel]. destruct mp_diameters as [Ed Eh']. rewrite mp_heading, mp_elevation.
  split; [|exact HQ].
  split; cbn [pg_name pg_pos pg_d pg_forward pg_rot pg_stations pg_k pg_motor pg_units pg_wing]; auto.
  all: first [now apply Hmem | apply forward_mirror | now rewrite Ed | destruct pts; reflexivity].
Qed.
Lemma rmap_rel {A B} (Q : A -> A -> Prop) (f f' : B -> res A) l l' :
  Forall2 (fun x x' => res_rel Q (f x) (f' x')) l l' -> res_rel (Forall2 Q) (rmap f l) (rmap f' l').
Proof.
  induction 1 as [|x x' l l' H H1 IH]; cbn [rmap]; [constructor|].
  destruct (f x) as [a|e], (f' x') as [a'|e']; cbn [res_rel rbind] in *; try contradiction; auto.
  destruct (rmap f l) as [r|e], (rmap f' l') as [r'|e']; cbn [res_rel rbind] in *; try contradiction; auto.
Qed.
Lemma make_props_mirror (Q : string -> string -> Prop) E pl pl' pts : (forall n n', Q n n' -> pe_mem E n' = pe_mem E n) -> maq Q pl pl' ->
  res_rel (Forall2 (fun g g' => gmir E pts g g' /\ Q (pg_name g) (pg_name g'))) (make_props E pl pts) (make_props E pl' pts).
Proof.
  intros Hmem H. unfold make_props. apply rmap_rel. pose proof (mq_units _ _ _ H) as Hu. pose proof (mq_props _ _ _ H) as Hp. clear - Hu Hp Hmem.
  induction Hp as [|x x' l l' [HQ H] H1 IH]; cbn [map]; constructor; [|exact IH].
  unfold get_units. rewrite Hu. destruct (a_units pl) as [u|]; cbn [rbind]; [|reflexivity].
  now apply make_pgeom_mirror.
Qed.
Lemma mirror_zero : mirror (vzero : vec3 R) = vzero.
Proof. unfold mirror, vzero. cbn [vx vy vz]. rnum. now rewrite Ropp_0. Qed.
Lemma init_mirror E pts g g' : gmir E pts g g' -> init_pstate g' = pmir (init_pstate g).
Proof.
  intros G. unfold init_pstate, pmir. cbn [p_clock p_ei p_n p_J p_power p_throttle p_v p_rho p_Vinf p_einf p_alpha p_CL p_CD p_CT p_Cl p_CNa p_Cna p_CP p_eff p_Vi p_Vxi p_Vti p_T p_l p_F p_M].
  rewrite (gm_stations _ _ _ _ G), mirror_zero. rnum. rewrite Ropp_0.
  replace (vopp (vzero : vec3 R)) with (vzero : vec3 R) by (apply vec_eq; vunf; ring). reflexivity.
Qed.

(** *** Programs that do the same in the mirror *)
Definition equi {A} (f : A -> A) (p p' : st pst A) : Prop :=
  forall s, p' (pmir s) = (match fst (p s) with Ok a => Ok (f a) | Err e => Err e end, pmir (snd (p s))).
Notation equi1 := (equi (fun x => x)).
Lemma equi_bind {A B} (f : A -> A) (h : B -> B) p p' (c c' : A -> st pst B) :
  equi f p p' -> (forall a, equi h (c a) (c' (f a))) -> equi h (sbind p c) (sbind p' c').
Proof.
  intros P C s. unfold sbind. rewrite (P s). destruct (p s) as [[a|e] t]; cbn [fst snd]; [apply C|reflexivity].
Qed.
Lemma equi_ret {A} (f : A -> A) a : equi f (sret a) (sret (f a)).
Proof. intros s. reflexivity. Qed.
Lemma equi_raise {A} (f : A -> A) e : equi f (sraise e) (sraise e).
Proof. intros s. reflexivity. Qed.
Lemma equi_lift {A} (r : res A) : equi1 (slift r) (slift r).
Proof. intros s. destruct r; reflexivity. Qed.
Lemma equi_mod f f' : (forall s, f' (pmir s) = pmir (f s)) -> equi1 (smod f) (smod f').
Proof. intros K s. unfold smod. cbn [fst snd]. now rewrite K. Qed.
Lemma equi_get {A} (f : pst -> A) : (forall s, f (pmir s) = f s) -> equi1 (sget f) (sget f).
Proof. intros K s. unfold sget. cbn [fst snd]. now rewrite K. Qed.

Section Run.
  Variable E : penv R.
  Variable pts : option (list (vec3 R)).
  Variables g g' : pgeom R.
  Hypothesis G : gmir E pts g g'.

  Lemma find_coefficients_equi : equi1 (find_coefficients E g) (find_coefficients E g').
  Proof.
    destruct G. intros s. unfold find_coefficients. rewrite gm_stations0, gm_k0, gm_d0, gm_mem0.
    change (p_J (pmir s)) with (p_J s). change (p_ei (pmir s)) with (p_ei s). change (p_clock (pmir s)) with (p_clock s). cbv zeta.
    destruct (last_of (pg_stations g)) as [sl|]; [|reflexivity].
    destruct (find_ei _ _ _ _ _ _ _ _ _) as [[ei clk]|e]; reflexivity.
  Qed.
  Lemma set_op_mir n J p t s : set_op n J p t (pmir s) = pmir (set_op n J p t s).
  Proof. reflexivity. Qed.
  Lemma solve_at_rate_equi n : equi1 (solve_at_rate E g n) (solve_at_rate E g' n).
  Proof.
    unfold solve_at_rate. eapply equi_bind; [|intros; apply find_coefficients_equi].
    apply equi_mod. intros s. rewrite (gm_d _ _ _ _ G). reflexivity.
  Qed.
  Lemma sget_all {B} (h : B -> B) (c c' : pst -> st pst B) :
    (forall s, c' (pmir s) (pmir s) = (match fst (c s s) with Ok a => Ok (h a) | Err e => Err e end, pmir (snd (c s s)))) ->
    equi h (sbind (sget (fun s => s)) c) (sbind (sget (fun s => s)) c').
  Proof. intros K s. unfold sbind, sget. apply K. Qed.
  Lemma zero_power_equi pw n : equi1 (zero_power_difference E g pw n) (zero_power_difference E g' pw n).
  Proof.
    unfold zero_power_difference. eapply equi_bind; [apply solve_at_rate_equi|]. intros [].
    apply sget_all. intros s. rewrite (gm_d _ _ _ _ G). reflexivity.
  Qed.
  Lemma zero_torque_equi mo th n : equi1 (zero_torque_difference E g mo th n) (zero_torque_difference E g' mo th n).
  Proof.
    unfold zero_torque_difference. eapply equi_bind; [apply solve_at_rate_equi|]. intros [].
    apply sget_all. intros s. unfold motor_torque. rewrite (gm_d _ _ _ _ G), (gm_units _ _ _ _ G).
    change (p_n (pmir s)) with (p_n s). unfold sbind, slift. destruct (pg_units g); [|reflexivity].
    destruct (String.eqb _ _); reflexivity.
  Qed.
  Lemma rate_loop_equi f f' : (forall x, equi1 (f x) (f' x)) -> forall fuel x0 y0 x1 y1,
    equi1 (rate_loop fuel f x0 y0 x1 y1) (rate_loop fuel f' x0 y0 x1 y1).
  Proof.
    intros K. induction fuel as [|fuel IH]; intros; cbn [rate_loop]; [apply equi_raise|]. cbv zeta.
    destruct (nltb _ _); [apply (equi_ret (fun x => x))|]. eapply equi_bind; [apply K|]. intros y. apply IH.
  Qed.
  Lemma find_rate_equi fuel f f' : (forall x, equi1 (f x) (f' x)) -> equi1 (find_rate fuel f) (find_rate fuel f').
  Proof.
    intros K. unfold find_rate. eapply equi_bind; [apply equi_get; reflexivity|]. intros x0. cbv zeta.
    eapply equi_bind; [apply K|]. intros y0. cbv beta. destruct (nltb _ _); [apply (equi_ret (fun x => x))|].
    eapply equi_bind; [apply K|]. intros y1. now apply rate_loop_equi.
  Qed.
  Lemma state_from_power_equi : equi1 (state_from_power E g) (state_from_power E g').
  Proof.
    unfold state_from_power.
    assert (Hm : forall n, equi1 (smod (fun s => set_op n (p_Vinf s / (n * pg_d g)) (p_power s) (p_throttle s) s))
                                 (smod (fun s => set_op n (p_Vinf s / (n * pg_d g')) (p_power s) (p_throttle s) s))).
    { intros n. apply equi_mod. intros s. rewrite (gm_d _ _ _ _ G). reflexivity. }
    intros s. unfold sbind at 1 3. unfold sget. cbn [fst snd].
    change (p_throttle (pmir s)) with (p_throttle s). change (p_power (pmir s)) with (p_power s).
    change (p_Vinf (pmir s)) with (p_Vinf s). change (p_n (pmir s)) with (p_n s). rewrite (gm_motor _ _ _ _ G), (gm_d _ _ _ _ G).
    rewrite (gm_d _ _ _ _ G) in Hm.
    refine (equi_bind (fun x => x) (fun x => x) _ _ _ _ _ Hm s).
    destruct (p_throttle s) as [th|].
    - destruct (pg_motor g) as [mo|]; [|apply equi_raise].
      eapply equi_bind; [apply equi_lift|]. intros _. apply find_rate_equi. intros; apply zero_torque_equi.
    - destruct (p_power s) as [pw|]; [|apply equi_raise].
      eapply equi_bind; [apply equi_lift|]. intros _. apply find_rate_equi. intros; apply zero_power_equi.
  Qed.

  (** *** Forces *)
  Definition qmir (q : vec3 R * vec3 R * R * R) : vec3 R * vec3 R * R * R :=
    let '(F, M, T, l) := q in (mirror F, vopp (mirror M), T, - l).
  Lemma vec_angle_mirror a b : vec_angle (mirror a) (mirror b) = vec_angle (T := R) a b.
  Proof. unfold vec_angle. now rewrite !mirror_norm, mirror_dot. Qed.
  Lemma vopp_mir (v : vec3 R) : vopp (mirror v) = mirror (vopp v).
  Proof. unfold mirror. vring. Qed.
  Lemma cross2_mirror (w f : vec3 R) : vcross (vcross (mirror w) (mirror f)) (mirror f) = mirror (vcross (vcross w f) f).
  Proof. unfold mirror. vring. Qed.
  Lemma vdivs_mirror (v : vec3 R) x : vdivs (mirror v) x = mirror (vdivs v x).
  Proof. rewrite !vdivs_scale, mirror_scale. reflexivity. Qed.
  Lemma quad4 {A B C D} (a a' : A) (b b' : B) (c c' : C) (d d' : D) : a = a' -> b = b' -> c = c' -> d = d' ->
    @Ok (A * B * C * D) (a, b, c, d) = Ok (a', b', c', d').
  Proof. intros -> -> -> ->. reflexivity. Qed.
  Lemma resolve_mirror cg s : resolve g' (mirror cg) (pmir s) = match resolve g cg s with Ok q => Ok (qmir q) | Err e => Err e end.
  Proof.
    destruct G. unfold resolve. rewrite gm_forward0, gm_d0, gm_pos0, gm_rot0.
    change (p_v (pmir s)) with (mirror (p_v s)). rewrite vopp_mir, vec_angle_mirror. cbv zeta.
    destruct (vec_angle (pg_forward g) (vopp (p_v s))) as [an|e]; [|reflexivity]. unfold rbind.
    change (p_rho (pmir s)) with (p_rho s). change (p_n (pmir s)) with (p_n s). change (p_CNa (pmir s)) with (p_CNa s).
    change (p_Cna (pmir s)) with (p_Cna s). change (p_CT (pmir s)) with (p_CT s). change (p_Cl (pmir s)) with (p_Cl s).
    rewrite cross2_mirror, vdivs_mirror.
    set (N0 := vcross (vcross (vopp (p_v s)) (pg_forward g)) (pg_forward g)).
    replace (nsqrt _) with (nsqrt (nadd (nadd (nmul (vx N0) (vx N0)) (nmul (vy N0) (vy N0))) (nmul (vz N0) (vz N0)))).
    2:{ f_equal. unfold mirror. cbn [vx vy vz]. rnum. ring. }
    destruct (neqb an n0); unfold qmir; apply quad4; rnum; try ring; unfold mirror; vring.
  Qed.
  Lemma calc_forces_equi cg : equi qmir (p_calc_forces E g cg) (p_calc_forces E g' (mirror cg)).
  Proof.
    unfold p_calc_forces. intros s. unfold sbind at 1 5. unfold sget at 1 3. cbn [fst snd].
    change (p_throttle (pmir s)) with (p_throttle s). change (p_power (pmir s)) with (p_power s).
    revert s.
    enough (K : forall p p' : st pst unit, equi1 p p' ->
      equi qmir (sbind p (fun _ => sbind (smod (find_Vi (pg_stations g))) (fun _ => sbind (sget (fun s => s)) (fun s => sbind (slift (resolve g cg s)) (fun q => sbind (smod (set_forces q)) (fun _ => sret q))))))
                (sbind p' (fun _ => sbind (smod (find_Vi (pg_stations g'))) (fun _ => sbind (sget (fun s => s)) (fun s => sbind (slift (resolve g' (mirror cg) s)) (fun q => sbind (smod (set_forces q)) (fun _ => sret q))))))).
    { intros s. apply K. destruct (p_power s), (p_throttle s); first [apply state_from_power_equi | apply find_coefficients_equi]. }
    intros p p' Hp. eapply equi_bind; [exact Hp|]. intros []. eapply equi_bind.
    - apply equi_mod. intros s. rewrite (gm_stations _ _ _ _ G). reflexivity.
    - intros []. apply sget_all. intros s. unfold sbind, slift. rewrite resolve_mirror.
      destruct (resolve g cg s) as [[[[F M] T] l]|e]; reflexivity.
  Qed.
  Lemma set_prop_equi x : equi1 (p_set_prop (pg_d g) x) (p_set_prop (pg_d g') x).
  Proof.
    rewrite (gm_d _ _ _ _ G).
    assert (Hm : forall n J, equi1 (smod (fun s => set_op n J None None s)) (smod (fun s => set_op n J None None s))) by (intros; apply equi_mod; reflexivity).
    assert (H0 : equi1 (smod (fun s : pst => set_op (p_n s) (p_J s) None None s)) (smod (fun s => set_op (p_n s) (p_J s) None None s))) by (apply equi_mod; reflexivity).
    assert (HV : equi1 (sget (@p_Vinf R)) (sget (@p_Vinf R))) by (apply equi_get; reflexivity).
    assert (Hd : equi1 (default_op (pg_d g)) (default_op (pg_d g))).
    { unfold default_op. eapply equi_bind; [exact HV|]. intros V. eapply equi_bind; [apply equi_lift|]. intros n. apply equi_mod. reflexivity. }
    unfold p_set_prop. destruct x as [[x|[|y L]]|]; [|exact Hd| |exact Hd].
    - destruct (ntruthy x); [|exact Hd]. eapply equi_bind; [exact H0|]. intros. apply equi_raise.
    - eapply equi_bind; [exact H0|]. intros _.
      destruct (dget (y :: L) "J") as [vJ|].
      { eapply equi_bind; [apply equi_lift|]. intros J. eapply equi_bind; [apply equi_mod; reflexivity|]. intros _.
        eapply equi_bind; [exact HV|]. intros V. destruct (_ || _)%bool.
        - destruct (dget (y :: L) "rot_per_sec"); [|apply equi_raise]. eapply equi_bind; [apply equi_lift|]. intros n. apply Hm.
        - eapply equi_bind; [apply equi_lift|]. intros n. apply Hm. }
      destruct (dget (y :: L) "rot_per_sec") as [vn|].
      { eapply equi_bind; [apply equi_lift|]. intros n. eapply equi_bind; [apply equi_mod; reflexivity|]. intros _.
        eapply equi_bind; [exact HV|]. intros V. eapply equi_bind; [apply equi_lift|]. intros J. apply Hm. }
      destruct (dget (y :: L) "brake_power") as [vp|].
      { eapply equi_bind; [apply equi_lift|]. intros pw. apply equi_mod; reflexivity. }
      destruct (dget (y :: L) "electric_throttle") as [vt|]; [|apply equi_raise].
      eapply equi_bind; [apply equi_lift|]. intros th. apply equi_mod; reflexivity.
  Qed.
  Lemma truthy_given (a : aero_state R) : an a <> [] -> aero_truthy a = true.
  Proof. intros K. unfold aero_truthy. destruct (an a); [congruence|reflexivity]. Qed.
  Lemma unit_freestream_mirror a a' : mirrored_flow a a' ->
    freestream n1 (dgetd (an a') "alpha" n0) (dgetd (an a') "beta" n0) = mirror (freestream (T := R) n1 (dgetd (an a) "alpha" n0) (dgetd (an a) "beta" n0)).
  Proof.
    intros F. change (dgetd (an a') "alpha" n0) with (entry (an a') "alpha"). change (dgetd (an a') "beta" n0) with (entry (an a') "beta").
    rewrite (mf_alpha F), (mf_beta F). apply freestream_mirror.
  Qed.
  Lemma set_aero_equi a a' : an a <> [] -> an a' <> [] -> mirrored_flow a a' -> equi1 (p_set_aero (Some a)) (p_set_aero (Some a')).
  Proof.
    intros Na Na' F. unfold p_set_aero, opt_truthy. rewrite !truthy_given by assumption.
    rewrite (unit_freestream_mirror _ _ F), (mf_V F), (mf_rho F). cbv zeta.
    destruct (dget (an a) "V_mag") as [V|]; [destruct (dget (an a) "rho") as [rho|]|].
    - apply equi_mod. reflexivity.
    - eapply equi_bind; [apply equi_mod; reflexivity|]. intros. apply equi_raise.
    - eapply equi_bind; [apply equi_mod; reflexivity|]. intros. apply equi_raise.
  Qed.
  Lemma run_prop_equi cg a a' ps : local_state ps (pg_name g') = local_state ps (pg_name g) -> an a <> [] -> an a' <> [] -> mirrored_flow a a' ->
    equi qmir (run_prop E cg (Some a) ps g) (run_prop E (mirror cg) (Some a') ps g').
  Proof.
    intros Hl Na Na' F. unfold run_prop. eapply equi_bind; [now apply set_aero_equi|]. intros [].
    eapply equi_bind; [rewrite Hl; apply set_prop_equi|]. intros []. apply calc_forces_equi.
  Qed.

  (** *** Slipstream *)
  Lemma point_velocity_mirror s pt :
    point_velocity g' (pmir s) (wing_point (pg_pos g') (pg_forward g') (pg_d g') (mirror pt)) =
    mirror (point_velocity g s (wing_point (pg_pos g) (pg_forward g) (pg_d g) pt)).
  Proof.
    destruct G. rewrite gm_pos0, gm_forward0, gm_d0. unfold point_velocity, slip_dir. rewrite gm_d0, gm_stations0, gm_rot0, gm_forward0.
    change (p_Vxi (pmir s)) with (p_Vxi s). change (p_Vti (pmir s)) with (p_Vti s). change (p_Vinf (pmir s)) with (p_Vinf s).
    unfold wing_point. cbn [wp_in wp_t wp_dist wp_tangent]. cbv zeta.
    rewrite <- mirror_sub, mirror_dot, <- mirror_scale, <- mirror_add, <- mirror_sub, mirror_norm, mirror_cross.
    destruct (_ && _)%bool; [|symmetry; apply mirror_zero].
    match goal with |- context [vcross (pg_forward g) ?v] => set (c2p := v) end.
    assert (En : vnorm (vopp (mirror (vcross (pg_forward g) c2p))) = vnorm (vcross (pg_forward g) c2p)).
    { rewrite vopp_mir, mirror_norm. unfold vnorm. f_equal. vunf. ring. }
    rewrite En, !vdivs_scale, vopp_mir. rnum. unfold mirror. vring.
  Qed.
End Run.

(** *** All propellers *)
(** the propellers of a pair find the same settings in prop_state *)
Definition settings_same (ps : option (dict (pval R))) (g g' : pgeom R) : Prop :=
  local_state ps (pg_name g') = local_state ps (pg_name g).
Section All.
  Variable E : penv R.
  Variable pts : option (list (vec3 R)).
  Lemma run_props_mirror cg a a' ps : an a <> [] -> an a' <> [] -> mirrored_flow a a' ->
    forall gs gs', Forall2 (gmir E pts) gs gs' -> Forall2 (settings_same ps) gs gs' -> forall ss,
    run_props E (mirror cg) (Some a') ps gs' (map pmir ss) =
    (match fst (run_props E cg (Some a) ps gs ss) with Ok qs => Ok (map qmir qs) | Err e => Err e end,
     map pmir (snd (run_props E cg (Some a) ps gs ss))).
  Proof.
    intros Na Na' F. induction 1 as [|g g' gs gs' G H IH]; intros HS ss; [reflexivity|]. inversion_clear HS as [|? ? ? ? Hl HS'].
    destruct ss as [|s ss]; [reflexivity|]. cbn [map run_props].
    rewrite (run_prop_equi E pts g g' G cg a a' ps Hl Na Na' F s).
    destruct (run_prop E cg (Some a) ps g s) as [[q|e] t]; cbn [fst snd]; [|reflexivity].
    rewrite IH by exact HS'. destruct (run_props E cg (Some a) ps gs ss) as [[qs|e] ts]; reflexivity.
  Qed.
  Lemma fold_force qs : forall v, fold_left (fun a q => vadd a (fst (fst (fst q)))) (map qmir qs) (mirror v)
    = mirror (fold_left (fun a q => vadd a (fst (fst (fst q)))) qs v).
  Proof.
    induction qs as [|[[[F M] T] l] qs IH]; intros v; [reflexivity|]. cbn [map fold_left qmir fst snd]. rewrite <- mirror_add. apply IH.
  Qed.
  Lemma fold_moment qs : forall v, fold_left (fun a q => vadd a (snd (fst (fst q)))) (map qmir qs) (vopp (mirror v))
    = vopp (mirror (fold_left (fun a q => vadd a (snd (fst (fst q)))) qs v)).
  Proof.
    induction qs as [|[[[F M] T] l] qs IH]; intros v; [reflexivity|]. cbn [map fold_left qmir fst snd].
    replace (vadd (vopp (mirror v)) (vopp (mirror M))) with (vopp (mirror (vadd v M))) by (unfold mirror; vring). apply IH.
  Qed.
  Definition tot_rel (r r' : @prop_total R) : Prop :=
    mirrored_forces (pt_fm r) (pt_fm r') /\ pt_thrust r' = pt_thrust r /\ pt_torque r' = - pt_torque r.
  Lemma calc_forces_mirror cg a a' ps gs gs' ss : an a <> [] -> an a' <> [] -> mirrored_flow a a' -> Forall2 (gmir E pts) gs gs' -> Forall2 (settings_same ps) gs gs' ->
    res_rel tot_rel (fst (calc_forces E cg (Some a) ps gs ss)) (fst (calc_forces E (mirror cg) (Some a') ps gs' (map pmir ss))) /\
    snd (calc_forces E (mirror cg) (Some a') ps gs' (map pmir ss)) = map pmir (snd (calc_forces E cg (Some a) ps gs ss)).
  Proof.
    intros Na Na' F G HS. unfold calc_forces. rewrite (run_props_mirror cg a a' ps Na Na' F gs gs' G HS ss).
    destruct (run_props E cg (Some a) ps gs ss) as [[qs|e] ts]; cbn [fst snd]; [|split; reflexivity]. cbv zeta.
    unfold last_of. rewrite map_length, nth_error_map. destruct (nth_error qs _) as [[[[F0 M0] T0] l0]|]; cbn [option_map qmir fst snd res_rel]; [|split; reflexivity].
    split; [|reflexivity]. split; [|split; reflexivity]. cbn [pt_fm]. rewrite (unit_freestream_mirror _ _ F).
    pose proof (fold_force qs vzero) as K1. rewrite mirror_zero in K1. rewrite K1.
    pose proof (fold_moment qs vzero) as K2. rewrite mirror_zero in K2.
    replace (vopp (vzero : vec3 R)) with (vzero : vec3 R) in K2 by (apply vec_eq; vunf; ring). rewrite K2. apply make_pair.
  Qed.
End All.
