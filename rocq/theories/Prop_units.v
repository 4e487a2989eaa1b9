(** Changing the system of units: the propellers (C72). *)
From Coq Require Import Reals ZArith String Bool Arith Lia Lra List.
From Verif Require Import Base Num RVec Geometry Grid LLModel PropModel Spec_Units LL_R LL_scale LL_units.
Import ListNotations.
Local Open Scope string_scope.
Local Open Scope R_scope.

Section Units.
  Variables m k l : R.
  Hypothesis Hm : 0 < m.
  Hypothesis Hk : 0 < k.
  Hypothesis Hl : 0 < l.

  Lemma ratio c a b : 0 < c -> c * a / (c * b) = a / b.
  Proof.
    intros Hc. unfold Rdiv. rewrite Rinv_mult. replace (c * a * (/ c * / b)) with (c * / c * (a * / b)) by ring. rewrite Rinv_r by lra. ring.
  Qed.
  Lemma ltb_in c a b : 0 < c -> Rltb (c * a) (c * b) = Rltb a b.
  Proof.
    intros Hc. destruct (Rltb a b) eqn:E.
    - apply Rltb_true. apply Rltb_true in E. now apply Rmult_lt_compat_l.
    - apply Rltb_false. apply Rltb_false in E. apply Rmult_le_compat_l; lra.
  Qed.
  Lemma leb_in c a b : 0 < c -> Rleb (c * a) (c * b) = Rleb a b.
  Proof.
    intros Hc. destruct (Rleb a b) eqn:E.
    - apply Rleb_true. apply Rleb_true in E. apply Rmult_le_compat_l; lra.
    - apply Rleb_false. apply Rleb_false in E. now apply Rmult_lt_compat_l.
  Qed.
  Lemma eqb0_in c a : 0 < c -> Reqb (c * a) 0 = Reqb a 0.
  Proof.
    intros Hc. destruct (Reqb a 0) eqn:E.
    - apply Reqb_true. apply Reqb_true in E. subst. ring.
    - apply Reqb_false. apply Reqb_false in E. intros Q. apply Rmult_integral in Q. lra.
  Qed.

  (** *** Geometry *)
  Lemma dget_lengths ks (d : dict (pyval R)) key :
    dget (lengths_in l ks d) key = option_map (fun v => if existsb (String.eqb key) ks then length_in l v else v) (dget d key).
  Proof.
    induction d as [|[n v] d IH]; [reflexivity|]. cbn [lengths_in map dget fst snd]. destruct (String.eqb_spec key n) as [->|]; [reflexivity|exact IH].
  Qed.
  Lemma pnum_length v : pnum (length_in l v) = match pnum v with Ok x => Ok (l * x) | Err e => Err e end.
  Proof. unfold length_in. destruct (pnum v) eqn:E; [reflexivity|exact E]. Qed.
  Lemma zetas_in p : zetas (prop_in l p) = zetas p.
  Proof.
    unfold zetas. cbn [prop_in pr_diameter pr_hub pr_nodes]. rnum. rewrite (eqb0_in l _ Hl), (ratio l _ _ Hl). reflexivity.
  Qed.
  Lemma radius_in d z : radius (l * d) z = l * radius d z.
  Proof. unfold radius. rnum. ring. Qed.
  Lemma beta_angle_in b r a : aero_beta_angle b (l * r) a = aero_beta_angle b r a.
  Proof.
    unfold aero_beta_angle. cbv zeta. rnum. f_equal.
    set (t := tan b). set (s := tan a). set (p := 2 * PI).
    replace (p * (l * r) * (p * (l * r) * t - p * (l * r) * s)) with (l * (l * (p * r * (p * r * t - p * r * s)))) by ring.
    replace (p * (l * r) + p * (l * r) * t * s) with (l * (p * r + p * r * t * s)) by ring.
    rewrite (ratio l _ _ Hl). replace (p * (l * r)) with (l * (p * r)) by ring.
    replace (l * (p * r * (p * r * t - p * r * s)) / (p * r + p * r * t * s)) with (l * (p * r * (p * r * t - p * r * s) / (p * r + p * r * t * s))) by (unfold Rdiv; ring).
    apply (ratio l _ _ Hl).
  Qed.
  Definition same_res {A B} (P : A -> B -> Prop) (x : res A) (y : res B) : Prop :=
    match x, y with Ok a, Ok b => P a b | Err e, Err e' => e = e' | _, _ => False end.
  Lemma same_bind {A B C D} (P : A -> B -> Prop) (Q : C -> D -> Prop) x y f g :
    same_res P x y -> (forall a b, P a b -> same_res Q (f a) (g b)) -> same_res Q (rbind x f) (rbind y g).
  Proof. destruct x, y; cbn [same_res rbind]; intros K F; auto; contradiction. Qed.
  Lemma same_eq {A} (x : res A) : same_res eq x x.
  Proof. destruct x; reflexivity. Qed.
  Lemma pitch_in E p : same_res (fun f g : R -> R -> R -> R => forall z r a, g z (l * r) a = f z r a) (pitch E p) (pitch E (prop_in l p)).
  Proof.
    unfold pitch. cbn [prop_in pr_pitch pr_diameter].
    set (info := pr_pitch p). set (ks := pitch_lengths info).
    assert (G : forall key, key <> "value" -> dget (lengths_in l ks info) key = dget info key).
    { intros key Q. rewrite dget_lengths. replace (existsb (String.eqb key) ks) with false; [now destruct (dget info key)|].
      unfold ks, pitch_lengths. destruct (dget info "type") as [ty|]; [|reflexivity]. destruct (peq_str ty "value"); [|reflexivity].
      cbn [existsb]. destruct (String.eqb_spec key "value"); [contradiction|reflexivity]. }
    rewrite (G "pitch_increment") by discriminate. apply same_bind with (P := eq); [apply same_eq|]. intros inc ? <-. cbv zeta.
    unfold dlookup. rewrite (G "type") by discriminate. rewrite (G "filename") by discriminate.
    destruct (dget info "type") as [ty|] eqn:Ety; cbn [rbind]; [|reflexivity].
    destruct (peq_str ty "default"); [cbn [same_res]; reflexivity|].
    destruct (peq_str ty "from_file").
    { apply same_bind with (P := eq); [apply same_eq|]. intros f ? <-. cbn [same_res]. intros z r a. now rewrite beta_angle_in. }
    rewrite dget_lengths. destruct (dget info "value") as [v|]; cbn [option_map rbind].
    2:{ destruct (peq_str ty "ratio"); [reflexivity|]. destruct (peq_str ty "value"); reflexivity. }
    destruct (peq_str ty "ratio") eqn:Er.
    { replace (existsb (String.eqb "value") ks) with false; [|].
      - apply same_bind with (P := eq); [apply same_eq|]. intros x ? <-. cbn [same_res]. reflexivity.
      - unfold ks, pitch_lengths. rewrite Ety. destruct (peq_str ty "value") eqn:Ev; [|reflexivity]. exfalso.
        destruct ty; try discriminate. cbn [peq_str] in Er, Ev. apply String.eqb_eq in Er, Ev. congruence. }
    destruct (peq_str ty "value") eqn:Ev; [|reflexivity].
    replace (existsb (String.eqb "value") ks) with true by (unfold ks, pitch_lengths; rewrite Ety, Ev; reflexivity).
    rewrite pnum_length. destruct (pnum v) as [x|e]; cbn [rbind same_res]; [|reflexivity].
    intros z r a. change (@ndiv R Rnum) with Rdiv. now rewrite (ratio l _ _ Hl).
  Qed.
  Lemma chord_in E p zs : same_res (fun f g : R -> R => forall z, g z = l * f z) (chord E p zs) (chord E (prop_in l p) zs).
  Proof.
    unfold chord. cbn [prop_in pr_chord pr_diameter]. set (info := pr_chord p). cbv zeta.
    unfold dlookup, dgetd. rewrite !dget_lengths. cbn [existsb String.eqb Ascii.eqb Bool.eqb orb].
    destruct (dget info "type") as [ty|]; cbn [option_map rbind]; [|reflexivity].
    destruct (peq_str ty "default"); [cbn [same_res]; intros z; rnum; ring|].
    destruct (peq_str ty "from_file").
    { replace (option_map (fun v : pyval R => v) (dget info "filename")) with (dget info "filename") by now destruct (dget info "filename").
      apply same_bind with (P := eq); [apply same_eq|]. intros f ? <-. cbn [same_res]. intros z. rnum. unfold Rdiv. ring. }
    destruct (dget info "root") as [v|]; cbn [option_map rbind].
    2:{ destruct (peq_str ty "linear"); [reflexivity|]. destruct (peq_str ty "elliptical"); reflexivity. }
    rewrite pnum_length. destruct (peq_str ty "linear").
    - destruct (pnum v) as [x|e] eqn:Ex; cbn [rbind same_res]; [|reflexivity].
      assert (T : pnum match option_map (fun v => length_in l v) (dget info "tip") with Some w => w | None => length_in l v end
                  = match pnum match dget info "tip" with Some w => w | None => v end with Ok x => Ok (l * x) | Err e => Err e end).
      { destruct (dget info "tip"); cbn [option_map]; apply pnum_length. }
      rewrite T. destruct (pnum match dget info "tip" with Some w => w | None => v end) as [y|e]; cbn [rbind]; [|reflexivity].
      destruct zs as [|z0 zs]; [reflexivity|]. destruct (last_of (z0 :: zs)) as [zl|]; [|reflexivity].
      cbn [same_res]. intros z. unfold linear_interp. rnum. unfold Rdiv. ring.
    - destruct (peq_str ty "elliptical"); [|reflexivity]. destruct (pnum v) as [x|e]; cbn [rbind same_res]; [|reflexivity].
      intros z. rnum. ring.
  Qed.
  Definition station_in (s : station R) : station R :=
    MkSt (z_zeta s) (l * z_r s) (z_al0 s) (z_cla s) (z_clmax s) (z_cd0 s) (z_cdl s) (z_cdl2 s) (z_beta s) (l * z_cb s).
  Definition wpoint_in (w : wpoint R) : wpoint R := MkWP (l * wp_t w) (l * wp_dist w) (wp_tangent w) (wp_in w).
  Lemma wing_point_in pos f d pt : wing_point (vscale l pos) f (l * d) (vscale l pt) = wpoint_in (wing_point pos f d pt).
  Proof.
    unfold wing_point. rewrite (sub_l l), vdot_scale_l. cbv zeta. set (t := vdot (vsub pt pos) f).
    replace (vsub (vscale l pt) (vadd (vscale l pos) (vscale (l * t) f))) with (vscale l (vsub pt (vadd pos (vscale t f)))) by vring.
    set (c := vsub pt _). rewrite (norm_l l Hl). replace (vcross f (vscale l c)) with (vscale l (vcross f c)) by vring.
    rewrite (norm_l l Hl). unfold wpoint_in. cbn [wp_t wp_dist wp_tangent wp_in].
    replace (vdivs (vscale l (vcross f c)) (l * vnorm (vcross f c))) with (vdivs (vcross f c) (vnorm (vcross f c))).
    2:{ set (w := vcross f c). set (n := vnorm w). unfold vdivs, vscale. cbn [vx vy vz]. rnum. rewrite !(ratio l _ _ Hl). reflexivity. }
    f_equal. rnum. rewrite Rabs_mult, (Rabs_pos_eq l) by lra. replace (l * d / 2) with (l * (d / 2)) by (unfold Rdiv; ring).
    rewrite (leb_in l _ _ Hl). replace (Rltb (l * t) 0) with (Rltb (l * t) (l * 0)) by (f_equal; ring). rewrite (ltb_in l _ _ Hl). reflexivity.
  Qed.
  Definition pgeom_in (u : option string) (g : pgeom R) : pgeom R :=
    MkPG (pg_name g) (vscale l (pg_pos g)) (l * pg_d g) (l * pg_hd g) (pg_theta g) (pg_gamma g) (pg_forward g) (pg_rot g)
         (map station_in (pg_stations g)) (pg_k g) (pg_motor g) (option_map (map wpoint_in) (pg_wing g)) u.
  Lemma make_pgeom_in E u u' pts p :
    make_pgeom E u' (option_map (map (vscale l)) pts) (prop_in l p) =
    match make_pgeom E u pts p with Ok g => Ok (pgeom_in u' g) | Err e => Err e end.
  Proof.
    unfold make_pgeom. rewrite zetas_in. destruct (zetas p) as [zs|e]; cbn [rbind]; [|reflexivity]. cbv zeta.
    change (coefficients (prop_in l p) zs) with (coefficients p zs). destruct (coefficients p zs) as [c|e]; cbn [rbind]; [|reflexivity].
    pose proof (pitch_in E p) as B. destruct (pitch E p) as [b|e], (pitch E (prop_in l p)) as [b'|e']; cbn [same_res rbind] in *; try contradiction; [|congruence].
    pose proof (chord_in E p zs) as C. destruct (chord E p zs) as [ch|e], (chord E (prop_in l p) zs) as [ch'|e']; cbn [same_res rbind] in *; try contradiction; [|congruence].
    change (make_motor (prop_in l p)) with (make_motor p). destruct (make_motor p) as [mo|e]; cbn [rbind]; [|reflexivity].
    unfold pgeom_in. cbn [prop_in pr_name pr_position pr_diameter pr_hub pr_elevation pr_heading pr_rot_dir pr_blades
      pg_name pg_pos pg_d pg_hd pg_theta pg_gamma pg_forward pg_rot pg_stations pg_k pg_motor pg_wing].
    replace (map (make_station (l * pr_diameter p) c b' ch') zs) with (map station_in (map (make_station (pr_diameter p) c b ch) zs)).
    - do 2 f_equal. destruct pts as [pts|]; cbn [option_map]; [|reflexivity]. f_equal. rewrite !map_map. apply map_ext. intros pt. apply wing_point_in.
    - rewrite map_map. apply map_ext. intros z. unfold make_station, station_in. cbv zeta.
      cbn [z_zeta z_r z_al0 z_cla z_clmax z_cd0 z_cdl z_cdl2 z_beta z_cb]. rewrite radius_in, B, C. reflexivity.
  Qed.
  Lemma make_props_in E u pl pts :
    match make_props E pl pts, make_props E (plane_in l u pl) (option_map (map (vscale l)) pts) with
    | Ok gs, Ok gs' => gs' = map (pgeom_in u) gs
    | Err e, Err e' => e = e'
    | _, _ => False
    end.
  Proof.
    unfold make_props. cbn [plane_in a_props]. rewrite map_map. cbn [snd]. induction (a_props pl) as [|[n p] ps IH]; [reflexivity|].
    cbn [map snd rmap]. unfold get_units in *. cbn [plane_in a_units] in *. destruct (a_units pl) as [uo|]; cbn [option_map rbind] in *; [|reflexivity].
    rewrite (make_pgeom_in E uo u pts p). destruct (make_pgeom E uo pts p) as [g|e]; cbn [rbind]; [|reflexivity].
    match type of IH with match ?x with _ => _ end => destruct x as [gs|e] end;
      match type of IH with match ?x with _ => _ end => destruct x as [gs'|e'] end; cbn [rbind]; try contradiction; [|exact IH].
    now subst gs'.
  Qed.
End Units.
