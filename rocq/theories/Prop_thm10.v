(** Propeller theorems over the real numbers, part 10: the velocity field behind the disk. *)
From Coq Require Import Reals ZArith String Bool Arith Lia Lra List Sorting.Sorted.
From Verif Require Import Base Num RVec Geometry Grid LLModel PropModel Spec_Grid Spec_LL Spec_Prop
     Spec_Blade Spec_Slip Prop_state LL_R LL_thm2 Prop_thm Prop_thm2 Prop_thm3 Prop_thm4 Prop_thm5 Prop_thm6 Prop_thm7 Prop_thm8.
Import ListNotations.
Local Open Scope string_scope.
Local Open Scope R_scope.

(** *** Nodes *)
Lemma linspace_R a b n i : (i < n)%nat -> (2 <= n)%nat ->
  linspace (T := R) a b n i = a + INR i * ((b - a) / INR (n - 1)).
Proof.
  intros Hi Hn. unfold linspace. replace (Nat.leb n 1) with false by (symmetry; apply Nat.leb_gt; lia).
  assert (P : 0 < INR (n - 1)) by (apply lt_0_INR; lia).
  destruct (Nat.eqb (S i) n) eqn:K.
  - apply Nat.eqb_eq in K. replace (n - 1)%nat with i in * by lia. field. lra.
  - rnum. rewrite <- !INR_IZR_INZ. replace (pred n) with (n - 1)%nat by lia. ring.
Qed.
Lemma sorted_seq (f : nat -> R) n k : (forall i j, (k <= i < j)%nat -> (j < k + n)%nat -> f i < f j) ->
  StronglySorted Rlt (map f (seq k n)).
Proof.
  revert k. induction n as [|n IH]; intros k H; cbn; constructor.
  - apply IH. intros i j Hi Hj. apply H; lia.
  - apply Forall_forall. intros x Hx. apply in_map_iff in Hx. destruct Hx as (j & <- & Hj). apply in_seq in Hj. apply H; lia.
Qed.
Lemma sorted_scale c l : 0 < c -> StronglySorted Rlt l -> StronglySorted Rlt (map (Rmult c) l).
Proof.
  intros Hc. induction 1 as [|a l S IH F]; cbn; constructor; [exact IH|].
  apply Forall_forall. intros x Hx. apply in_map_iff in Hx. destruct Hx as (y & <- & Hy).
  rewrite Forall_forall in F. apply Rmult_lt_compat_l; auto.
Qed.
Lemma stations_sorted E u wp (p : prop R) g : make_pgeom E u wp p = Ok g -> 0 < pr_diameter p ->
  pr_hub p < 999 / 1000 * pr_diameter p -> StronglySorted Rlt (map (@z_r R) (pg_stations g)).
Proof.
  intros Hg Hd Hh. destruct (make_pgeom_stations _ _ _ _ _ Hg) as [H1 H2].
  destruct (make_pgeom_data _ _ _ _ _ Hg) as (_ & _ & Ed & _).
  assert (E1 : map (@z_r R) (pg_stations g) = map (Rmult (pr_diameter p / 2)) (map (@z_zeta R) (pg_stations g))).
  { rewrite map_map. apply map_ext_in. intros z Hz. rewrite Forall_forall in H1. rewrite (H1 z Hz), Ed. lra. }
  rewrite E1. apply sorted_scale; [lra|]. rewrite H2. apply sorted_seq. intros i j Hij Hj.
  rewrite !linspace_R by lia.
  assert (E9 : ndec 999 3 = 999 / 1000) by (rnum; unfold Rdec; simpl; lra). rewrite E9.
  assert (P : 0 < INR (pr_nodes p - 1)) by (apply lt_0_INR; lia).
  assert (Hq : pr_hub p / pr_diameter p < 999 / 1000).
  { apply (Rmult_lt_reg_r (pr_diameter p)); [exact Hd|]. unfold Rdiv at 1. rewrite Rmult_assoc, Rinv_l by lra. lra. }
  assert (INR i < INR j) by (apply lt_INR; lia).
  assert (0 < (999 / 1000 - pr_hub p / pr_diameter p) / INR (pr_nodes p - 1)) by (apply Rdiv_lt_0_compat; lra).
  apply Rplus_lt_compat_l, Rmult_lt_compat_r; assumption.
Qed.

(** *** Interpolation *)
Lemma interp_from_profile pts : forall x0 y0 x, StronglySorted Rlt (x0 :: map fst pts) -> x0 <= x ->
  on_profile ((x0, y0) :: pts) x (interp_from (T := R) x0 y0 pts 0 x).
Proof.
  induction pts as [|[x1 y1] pts IH]; intros x0 y0 x Hs Hx; cbn [interp_from]; rnum.
  - destruct (Rltb x0 x) eqn:K.
    + apply Rltb_true in K. repeat split.
      * intros [|[|i]] p H; try discriminate. injection H as <-. cbn. lra.
      * intros i p q H1 H2. destruct i as [|i]; [discriminate|]. destruct i; discriminate.
    + apply Rltb_false in K. assert (x = x0) by lra. subst x. repeat split.
      * intros [|[|i]] p H; try discriminate. injection H as <-. reflexivity.
      * intros i p q H1 H2. destruct i as [|i]; [discriminate|]. destruct i; discriminate.
      * intros H. specialize (H _ (or_introl eq_refl)). cbn in H. lra.
      * intros H. specialize (H _ (or_introl eq_refl)). cbn in H. lra.
  - inversion Hs as [|? ? S1 F1]; subst. inversion F1 as [|? ? F2 F3]; subst. cbn [fst] in F2.
    destruct (Rleb x x1) eqn:K.
    + apply Rleb_true in K.
      assert (Hlt : forall i p, nth_error pts i = Some p -> x1 < fst p).
      { intros i p H. inversion S1 as [|? ? S2 F4]; subst. rewrite Forall_forall in F4. apply F4. apply in_map. eapply nth_error_In; eauto. }
      repeat split.
      * intros [|[|i]] p H E.
        -- injection H as <-. cbn in *. subst x. field. lra.
        -- injection H as <-. cbn in *. subst x. field. lra.
        -- cbn in H. specialize (Hlt _ _ H). lra.
      * intros [|[|i]] p q H1 H2 Hr.
        -- injection H1 as <-. injection H2 as <-. cbn. field. lra.
        -- injection H1 as <-. cbn [fst snd] in *. assert (x = x1) by lra. subst x. field. lra.
        -- cbn in H1. specialize (Hlt _ _ H1). lra.
      * intros H. specialize (H _ (or_introl eq_refl)). cbn in H. lra.
      * intros H. specialize (H _ (or_intror (or_introl eq_refl))). cbn in H. lra.
    + apply Rleb_false in K. specialize (IH x1 y1 x S1 (Rlt_le _ _ K)). destruct IH as (I1 & I2 & I3 & I4). repeat split.
      * intros [|i] p H E; [injection H as <-; cbn in E; lra|]. exact (I1 i p H E).
      * intros [|i] p q H1 H2 Hr; [injection H1 as <-; injection H2 as <-; cbn in Hr; lra|]. exact (I2 i p q H1 H2 Hr).
      * intros H. specialize (H _ (or_introl eq_refl)). cbn in H. lra.
      * intros H. apply I4. intros p Hp. apply H. now right.
Qed.
Lemma interpolate_profile pts x : StronglySorted Rlt (map fst pts) -> pts <> [] ->
  on_profile pts x (interpolate (T := R) 0 0 pts x).
Proof.
  intros Hs Hn. destruct pts as [|[x0 y0] pts]; [congruence|]. unfold interpolate. rnum.
  destruct (Rltb x x0) eqn:K.
  - apply Rltb_true in K. cbn [map fst] in Hs. inversion Hs as [|? ? S1 F1]; subst.
    assert (Hlt : forall i p, nth_error ((x0, y0) :: pts) i = Some p -> x < fst p).
    { intros [|i] p H; [injection H as <-; exact K|]. rewrite Forall_forall in F1.
      apply Rlt_trans with x0; [exact K|]. apply F1. apply in_map. eapply nth_error_In; eauto. }
    repeat split.
    + intros i p H E. specialize (Hlt _ _ H). lra.
    + intros i p q H1 _ Hr. specialize (Hlt _ _ H1). lra.
  - apply Rltb_false in K. apply interp_from_profile; [exact Hs|lra].
Qed.

(** *** Swirl *)
Lemma swirl_swirling rs vt rp : List.length vt = List.length rs -> List.length rp = List.length rs ->
  (forall i r, nth_error rp i = Some r -> 0 < r) ->
  swirling (Nat.div (List.length rs) 10) rs vt rp (swirl (T := R) rs vt rp).
Proof.
  intros L1 L2 Hp. unfold swirl, swirling. set (m := Nat.div (List.length rs) 10).
  set (raw := map2 _ (combine rs vt) rp).
  assert (Lr : List.length raw = List.length rs) by (unfold raw; rewrite map2_min, combine_length; lia).
  assert (Hraw : forall i r v r', nth_error rs i = Some r -> nth_error vt i = Some v -> nth_error rp i = Some r' ->
            nth_error raw i = Some (2 * v * r / r')).
  { intros i r v r' H1 H2 H3. unfold raw. rewrite nth_error_map2, (nth_error_combine _ _ _ _ _ H1 H2), H3. cbn [fst snd]. rnum. reflexivity. }
  clearbody raw.
  set (w := mapi _ _).
  assert (Hn : forall i y r', nth_error raw i = Some y -> nth_error rp i = Some r' ->
     nth_error w i = Some (if Nat.ltb i m then nth m raw 0 / nth m rp 0 * r' else y)).
  { intros i y r' H1 H2. unfold w, mapi. rewrite nth_error_mapi_from, (nth_error_combine _ _ _ _ _ H1 H2). reflexivity. }
  repeat split.
  - unfold w, mapi. clear -L2 Lr. assert (G : forall {A B} (f : nat -> A -> B) l k, List.length (mapi_from f k l) = List.length l).
    { induction l as [|a l IH]; intros k; cbn; [reflexivity|]. now rewrite IH. }
    rewrite G, combine_length. lia.
  - intros i r v r' v' Hi H1 H2 H3 H4. rewrite (Hn _ _ _ (Hraw _ _ _ _ H1 H2 H3) H3) in H4.
    replace (Nat.ltb i m) with false in H4 by (symmetry; apply Nat.ltb_ge; exact Hi). injection H4 as <-.
    specialize (Hp _ _ H3). field. lra.
  - intros i r' v' r0 v0 Hi H1 H2 H3 H4.
    assert (Hl : forall j x, nth_error rp j = Some x -> exists y, nth_error raw j = Some y).
    { intros j x Hj. destruct (nth_error raw j) eqn:K; [eauto|]. apply nth_error_None in K.
      assert (j < List.length rp)%nat by (apply nth_error_Some; congruence). lia. }
    destruct (Hl _ _ H1) as (y & Hy). destruct (Hl _ _ H3) as (y0 & Hy0).
    rewrite (Hn _ _ _ Hy H1) in H2. rewrite (Hn _ _ _ Hy0 H3) in H4. rewrite Nat.ltb_irrefl in H4.
    replace (Nat.ltb i m) with true in H2 by (symmetry; apply Nat.ltb_lt; exact Hi). injection H2 as <-. injection H4 as <-.
    rewrite (nth_error_nth _ _ 0 H3), (nth_error_nth _ _ 0 Hy0). specialize (Hp _ _ H3). field. lra.
Qed.

(** *** Rows of the distributions *)
Lemma blade_rows_lists name : forall (ss : list (station R)) einf ei al cl cd vi vx vt,
  List.length einf = List.length ss -> List.length ei = List.length ss -> List.length al = List.length ss ->
  List.length cl = List.length ss -> List.length cd = List.length ss ->
  List.length vi = List.length ss -> List.length vx = List.length ss -> List.length vt = List.length ss ->
  let rows := blade_rows name ss einf ei al cl cd vi vx vt in
  map (fun b => b_r b) rows = map (@z_r R) ss /\ map (fun b => b_Vx b) rows = vx /\ map (fun b => b_Vt b) rows = vt.
Proof.
  induction ss as [|z ss IH]; intros [|x1 l1] [|x2 l2] [|x3 l3] [|x4 l4] [|x5 l5] [|x6 l6] [|x7 l7] [|x8 l8];
    cbn [List.length]; intros H1 H2 H3 H4 H5 H6 H7 H8; try discriminate; cbv zeta; cbn [blade_rows map]; [auto|].
  destruct (IH l1 l2 l3 l4 l5 l6 l7 l8) as (I1 & I2 & I3); try lia.
  rewrite I1, I2, I3. auto.
Qed.
Lemma solved_rows E cg aero ps (g : pgeom R) s q s' : run_prop E cg aero ps g s = (Ok q, s') -> sized g s ->
  let rows := prop_rows g s' in
  map (fun b => b_r b) rows = map (@z_r R) (pg_stations g) /\ map (fun b => b_Vx b) rows = p_Vxi s' /\
  map (fun b => b_Vt b) rows = p_Vti s'.
Proof.
  intros H Hs. cbv zeta. destruct (run_prop_last _ _ _ _ _ _ _ _ H Hs) as (sa & sb & A1 & A2 & A3 & _ & _).
  destruct (find_coefficients_lists _ _ _ _ A1 A2) as (cla & _ & L1 & L2 & L3 & L4 & L5 & _).
  unfold blades in A3.
  assert (B : p_ei s' = p_ei sb /\ p_einf s' = p_einf sb /\ p_alpha s' = p_alpha sb /\ p_CL s' = p_CL sb /\
              p_CD s' = p_CD sb) by (repeat split; congruence).
  destruct B as (B1 & B2 & B3 & B4 & B5).
  rewrite <- B1 in *. rewrite <- B2 in *. rewrite <- B3 in *. rewrite <- B4 in *. rewrite <- B5 in *.
  apply run_prop_steps in H. destruct H as (s1 & s2 & s3 & _ & _ & _ & _ & Es).
  assert (EV : p_Vxi s' = p_Vxi (find_Vi (pg_stations g) s') /\ p_Vti s' = p_Vti (find_Vi (pg_stations g) s')).
  { rewrite Es. destruct q as [[[? ?] ?] ?]. split; reflexivity. }
  destruct EV as [-> ->]. unfold prop_rows. cbn [find_Vi p_ei p_einf p_alpha p_CL p_CD p_Vi p_Vxi p_Vti].
  set (vi := map2 _ _ (p_ei s')).
  assert (V1 : List.length vi = List.length (pg_stations g)) by (unfold vi; rewrite map2_min, combine_length; lia).
  set (vx := map2 _ vi _). set (vt := map2 _ vi _).
  assert (V2 : List.length vx = List.length (pg_stations g)) by (unfold vx; rewrite !map2_min; lia).
  assert (V3 : List.length vt = List.length (pg_stations g)) by (unfold vt; rewrite !map2_min; lia).
  apply blade_rows_lists; assumption.
Qed.

Lemma map_fst_combine {A B} : forall (l : list A) (m : list B), List.length m = List.length l -> map fst (combine l m) = l.
Proof. induction l as [|a l IH]; intros [|b m] H; try discriminate; [reflexivity|]. cbn. f_equal. apply IH. now injection H. Qed.

(** *** The contribution of one propeller *)
Lemma tube_increasing Vinf kd r0 rp0 v0 l rps : tube Vinf kd r0 rp0 v0 l rps ->
  List.length rps = List.length l /\ StronglySorted Rlt (rp0 :: rps).
Proof.
  induction 1 as [|r0 rp0 v0 r v l rp lp H1 H2 H3 H4 H5 [I1 I2]]; [split; [reflexivity|repeat constructor]|].
  split; [cbn; now rewrite I1|]. constructor; [exact I2|]. constructor; [exact H1|].
  inversion I2 as [|? ? _ F]; subst. eapply Forall_impl; [|exact F]. cbn. intros a Ha. lra.
Qed.
Lemma off_axis_point (pos f pt : vec3 R) :
  vsub pt (vadd pos (vscale (vdot (vsub pt pos) f) f)) = off_axis pos f pt.
Proof. unfold off_axis, vsub, vadd, vscale. cbn [vx vy vz]. f_equal; rnum; ring. Qed.
Lemma off_axis_perp (pos f pt : vec3 R) : vdot f f = 1 -> vdot (off_axis pos f pt) f = 0.
Proof. intros Hf. unfold off_axis. rewrite vdot_sub_l, vdot_scale_l, Hf. ring. Qed.
Lemma around_tangent (pos f pt : vec3 R) : vdot f f = 1 -> 0 < vnorm (off_axis pos f pt) ->
  let c := vcross f (off_axis pos f pt) in around pos f pt (vdivs c (vnorm c)).
Proof.
  intros Hf Hn. cbv zeta. set (o := off_axis pos f pt) in *.
  assert (Ho : vdot o f = 0) by now apply off_axis_perp.
  assert (Hc : vdot (vcross f o) (vcross f o) = vdot o o).
  { rewrite lagrange, Hf, (vdot_comm f o), Ho. ring. }
  assert (En : vnorm (vcross f o) = vnorm o).
  { apply vnorm_eq; [apply vnorm_nonneg|]. rewrite vnorm_sq. first [exact Hc|symmetry; exact Hc]. }
  rewrite En. pose proof (vnorm_sq o) as Hq.
  assert (Ed : forall a, vdot (vdivs (vcross f o) (vnorm o)) a = vdot (vcross f o) a / vnorm o).
  { intros a. unfold vdot, vdivs. cbn [vx vy vz]. rnum. field. lra. }
  unfold around. fold o. repeat split.
  - rewrite Ed, vdot_comm, Ed, Hc, <- Hq. field. lra.
  - rewrite Ed. replace (vdot (vcross f o) f) with 0 by (unfold vdot, vcross; cbn [vx vy vz]; rnum; ring). field. lra.
  - rewrite Ed. replace (vdot (vcross f o) o) with 0 by (unfold vdot, vcross; cbn [vx vy vz]; rnum; ring). field. lra.
  - rewrite vdot_comm, Ed, Hc, <- Hq. replace (vnorm o * vnorm o / vnorm o) with (vnorm o) by (field; lra). exact Hn.
Qed.

Lemma slipstream_lemma E u wp (p : prop R) g cg a ps s q s' V pt :
  make_pgeom E u wp p = Ok g -> 0 < pr_diameter p -> 0 < pr_hub p -> pr_hub p < 999 / 1000 * pr_diameter p ->
  (0 < pr_nodes p)%nat ->
  run_prop E cg (Some a) ps g s = (Ok q, s') -> sized g s -> dget (an a) "V_mag" = Some V -> 0 < V ->
  Forall (fun b => 0 <= b_Vx b) (prop_rows g s') ->
  slipstream_velocity p V (prop_rows g s') pt
    (point_velocity g s' (wing_point (pg_pos g) (pg_forward g) (pg_d g) pt)).
Proof.
  intros Hg Hd Hh Hhd Hn H Hs HV HV0 Hvx.
  destruct (make_pgeom_data _ _ _ _ _ Hg) as (Ef & Epos & Ed & Er & _ & _ & _).
  destruct (make_pgeom_stations _ _ _ _ _ Hg) as [Hst Hz].
  pose proof (stations_sorted _ _ _ _ _ Hg Hd Hhd) as Hsort.
  pose proof (zeta_pos _ _ _ _ _ Hg Hd Hh) as Hzp.
  destruct (solved_rows _ _ _ _ _ _ _ _ H Hs) as (R1 & R2 & R3).
  destruct (run_prop_flow _ _ _ _ _ _ _ _ _ H HV) as (rho & _ & Hf').
  assert (EVinf : p_Vinf s' = V) by (unfold flow_of in Hf'; congruence).
  assert (Hu : vdot (pg_forward g) (pg_forward g) = 1) by (rewrite Ef; apply propeller_axis_unit).
  unfold slipstream_velocity. cbv zeta. rewrite <- Ef, <- Epos, <- Ed, <- Er. split.
  - intros Ho. unfold point_velocity. now rewrite (in_streamtube_dec _ _ _ _ Hu Ho).
  - intros Hi Ho. apply (wing_point_in _ _ _ _ Hu) in Hi. unfold point_velocity. rewrite Hi.
    set (pos := pg_pos g) in *. set (f := pg_forward g) in *. set (d := pg_d g) in *.
    cbn [wing_point wp_t wp_dist wp_tangent]. rewrite off_axis_point.
    set (rows := prop_rows g s') in *.
    assert (Hlen : List.length rows = pr_nodes p).
    { apply (f_equal (@List.length _)) in R1. apply (f_equal (@List.length _)) in Hz.
      rewrite !map_length in *. rewrite seq_length in Hz. lia. }
    destruct rows as [|b0 rest] eqn:Erows; [cbn in Hlen; lia|].
    set (t := vdot (vsub pt pos) f).
    assert (Hk : development (T := R) (- t) (d / 2) = 1 + behind pos f pt / sqrt (behind pos f pt ^ 2 + (d / 2) ^ 2)).
    { unfold development, behind. fold t. rnum. do 3 f_equal. ring. }
    rewrite <- R1, <- R2, <- R3, EVinf.
    change (d / n2)%num with (d / 2). change (nopp t) with (- t). rewrite Hk.
    set (kd := 1 + behind pos f pt / sqrt (behind pos f pt ^ 2 + (d / 2) ^ 2)) in *.
    assert (Hkd : 1 <= kd).
    { rewrite <- Hk. apply Rlt_le, development_bounds; [|rewrite Ed; lra].
      cbn [wing_point wp_in] in Hi. apply andb_true_iff in Hi. destruct Hi as [_ Hi]. rnum. apply Rltb_true in Hi. fold t in Hi. lra. }
    assert (Hr0 : forall b, In b (b0 :: rest) -> 0 < b_r b).
    { intros b Hb. assert (Hb' : In (b_r b) (map (fun b => b_r b) (b0 :: rest))) by now apply in_map.
      rewrite R1 in Hb'. apply in_map_iff in Hb'. destruct Hb' as (z & <- & Hz').
      rewrite Forall_forall in Hst, Hzp. rewrite (Hst z Hz'). specialize (Hzp z Hz').
      assert (0 < z_zeta z * d) by (apply Rmult_lt_0_compat; [exact Hzp|rewrite Ed; exact Hd]). lra. }
    assert (Ecomb : combine (map (fun b => b_r b) (b0 :: rest)) (map (fun b => b_Vx b) (b0 :: rest)) =
                    (b_r b0, b_Vx b0) :: map (fun b => (b_r b, b_Vx b)) rest).
    { cbn [map combine]. f_equal. clear. induction rest as [|b l IH]; [reflexivity|]. cbn [map combine]. now rewrite IH. }
    rewrite Ecomb. rewrite <- R1 in Hsort.
    destruct (contracted_tube V kd (b_r b0) (b_Vx b0) (map (fun b => (b_r b, b_Vx b)) rest)) as (rp & Erp & Htube).
    { exact HV0. } { exact Hkd. } { apply Rlt_le, Hr0. now left. } { inversion Hvx; assumption. }
    { rewrite map_map. cbn [fst]. exact Hsort. }
    { apply Forall_forall. intros x Hx. apply in_map_iff in Hx. destruct Hx as (b & <- & Hb). cbn [snd].
      inversion Hvx as [|? ? _ F]; subst. rewrite Forall_forall in F. now apply F. }
    rewrite Erp. destruct (tube_increasing _ _ _ _ _ _ _ Htube) as [Lrp Srp]. rewrite map_length in Lrp.
    assert (Hpos : forall i r, nth_error (b_r b0 :: rp) i = Some r -> 0 < r).
    { intros i r Hr. pose proof (Hr0 b0 (or_introl eq_refl)) as P0. destruct i as [|i]; [injection Hr as <-; exact P0|].
      inversion Srp as [|? ? _ F]; subst. rewrite Forall_forall in F. apply Rlt_trans with (b_r b0); [exact P0|].
      apply F. eapply nth_error_In; eauto. }
    set (rs := map (fun b => b_r b) (b0 :: rest)) in *. set (vts := map (fun b => b_Vt b) (b0 :: rest)) in *.
    pose proof (swirl_swirling rs vts (b_r b0 :: rp)) as HW.
    assert (Lrs : List.length rs = pr_nodes p) by (unfold rs; rewrite map_length; exact Hlen).
    specialize (HW ltac:(unfold rs, vts; now rewrite !map_length)
                   ltac:(unfold rs; rewrite map_length; cbn [List.length]; now rewrite Lrp) Hpos).
    rewrite Lrs in HW. set (w := swirl rs vts (b_r b0 :: rp)) in *.
    assert (Ex : map (fun v => (v * kd)%num) (map (fun b => b_Vx b) (b0 :: rest)) = map (fun b => kd * b_Vx b) (b0 :: rest)).
    { rewrite map_map. apply map_ext. intros b. rnum. ring. }
    rewrite Ex.
    assert (Hfst : forall l : list R, List.length l = List.length (b_r b0 :: rp) ->
       StronglySorted Rlt (map fst (combine (b_r b0 :: rp) l)) /\ combine (b_r b0 :: rp) l <> []).
    { intros l Hl. split; [rewrite map_fst_combine by lia; exact Srp|]. destruct l; [discriminate|discriminate]. }
    exists b0, rest, rp, w. do 3 eexists. split; [reflexivity|]. split; [exact Htube|]. split; [exact HW|].
    split; [apply interpolate_profile; apply Hfst; rewrite map_length; cbn [List.length]; now rewrite Lrp|].
    split; [apply interpolate_profile; apply Hfst; exact (proj1 HW)|].
    split; [apply around_tangent; assumption|].
    unfold slip_dir. fold f. rnum. f_equal. f_equal. apply Rmult_comm.
Qed.

Lemma rmap_f2 {A B} (f : A -> res B) l : forall l', rmap f l = Ok l' -> Forall2 (fun a b => f a = Ok b) l l'.
Proof.
  induction l as [|a l IH]; intros l' H; cbn [rmap] in H.
  - injection H as <-. constructor.
  - unfold rbind in H. destruct (f a) as [x|] eqn:K; [|discriminate]. destruct (rmap f l) as [y|] eqn:K1; [|discriminate].
    injection H as <-. constructor; [exact K|]. now apply IH.
Qed.

Lemma f2_slip (P : prop R -> pgeom R -> pstate R -> vec3 R -> Prop) (f : pgeom R -> pstate R -> vec3 R) : forall pl gs ss,
  List.length gs = List.length pl -> List.length ss = List.length gs ->
  (forall p g s, In (p, (g, s)) (combine pl (combine gs ss)) -> P p g s (f g s)) ->
  Forall2 (fun q w => P (fst q) (fst (snd q)) (snd (snd q)) w) (combine pl (combine gs ss)) (map2 f gs ss).
Proof.
  induction pl as [|p pl IH]; intros [|g gs] [|s ss] L1 L2 H; try discriminate; cbn; constructor.
  - cbn. apply H. now left.
  - apply IH; [now injection L1|now injection L2|]. intros p' g' s' Hin. apply H. now right.
Qed.
Lemma in_combine3 {A B C} (l : list A) : forall (m : list B) (k : list C) a b c, In (a, (b, c)) (combine l (combine m k)) ->
  In (a, b) (combine l m) /\ In (b, c) (combine m k).
Proof.
  intros m k a b c H. split; [|eapply in_combine_r; eauto]. revert m k H.
  induction l as [|x l IH]; intros [|y m] [|z k] H; try (now destruct H). cbn in H. destruct H as [H|H].
  - injection H as -> -> ->. now left.
  - right. eapply IH; eauto.
Qed.

Lemma C69_lemma E (pl : airplane R) pts gs cg a ps h r out ss' i pt V :
  make_props E pl (Some pts) = Ok gs ->
  let n := Some (List.length pts) in let props := map snd (a_props pl) in
  props_solve E cg n (Some a) ps gs (props_after E n gs h) = (Ok (r, Some out), ss') ->
  dget (an a) "V_mag" = Some V -> 0 < V ->
  cos (degrees (entry (an a) "alpha")) <> 0 \/ cos (degrees (entry (an a) "beta")) <> 0 ->
  nth_error pts i = Some pt ->
  (forall p g s, In (p, (g, s)) (combine props (combine gs ss')) ->
     has_disk p /\ Forall (fun b => 0 <= b_Vx b) (prop_rows g s)) ->
  exists rho v added, dget (an a) "rho" = Some rho /\
    airflow V (degrees (entry (an a) "alpha")) (degrees (entry (an a) "beta")) v /\
    nth_error out i = Some (rho, vadd v (vsum added)) /\
    List.length added = List.length props /\
    Forall2 (fun q w => slipstream_velocity (fst q) V (prop_rows (fst (snd q)) (snd (snd q))) pt w)
            (combine props (combine gs ss')) added.
Proof.
  cbv zeta. intros Hg H HV HV0 Hs Hi Hd.
  destruct (C55_rows_lemma _ _ _ _ _ _ _ _ _ _ _ _ _ _ Hg H HV HV0 Hs Hi) as (rho & v & A & B & C).
  pose proof Hg as Hg'. unfold make_props in Hg'. apply rmap_f2 in Hg'.
  pose proof (Forall2_length' _ _ _ Hg') as Lg.
  assert (Ls : List.length ss' = List.length gs).
  { pose proof (props_after_length E (Some (List.length pts)) gs (h ++ [MkPCall cg (Some a) ps])) as K.
    unfold props_after in K, H. rewrite fold_left_app in K. cbn [fold_left pc_cg pc_aero pc_prop] in K. rewrite H in K. exact K. }
  eexists rho, v, _. split; [exact B|]. split; [exact C|]. split; [exact A|]. split.
  - rewrite map2_min. lia.
  - apply (f2_slip (fun p g s w => slipstream_velocity p V (prop_rows g s) pt w)); [lia|exact Ls|].
    intros p g s Hin. destruct (Hd p g s Hin) as [[D1 [D2 D3]] Hvx]. destruct (in_combine3 _ _ _ _ _ _ Hin) as [H1 H2].
    pose proof (Forall2_combine _ _ _ _ _ Hg' H1) as Hp. cbv beta in Hp. unfold rbind in Hp.
    destruct (get_units pl) as [u|]; [|discriminate].
    destruct (solve_turn _ _ _ _ _ _ _ _ _ H (props_after_length E _ gs h) g s H2) as (s0 & Hs0 & Hr).
    eapply slipstream_lemma; eauto; [lra|].
    exact (Forall2_combine _ _ _ _ _ (props_after_sized E _ gs h) Hs0).
Qed.
