(** Dynamic-pressure similarity (C28). *)
From Coq Require Import Reals ZArith String Bool Arith Lia Lra List.
From Verif Require Import Base Num RVec Geometry Grid LLModel Spec_Grid Spec_LL LL_state LL_R LL_solve Grid_thm LL_props LL_thm.
Import ListNotations.
Local Open Scope R_scope.

Section Scale.
  Variables m k : R.
  Hypothesis Hk : 0 < k.

  Lemma k_inv n : / (k * n) * k = / n.
  Proof. rewrite Rinv_mult. rewrite (Rmult_comm (/ k)), Rmult_assoc, Rinv_l by lra. ring. Qed.

  Lemma norm_k (v : vec3 R) : vnorm (vscale k v) = k * vnorm v.
  Proof. rewrite vnorm_scale, Rabs_pos_eq; lra. Qed.
  Lemma unit_k (v : vec3 R) : vdivs (vscale k v) (vnorm (vscale k v)) = vdivs v (vnorm v).
  Proof. rewrite norm_k, !vdivs_scale, vscale_scale, k_inv. reflexivity. Qed.
  Lemma unit_of_k (v : vec3 R) : unit_of (vscale k v) = unit_of v.
  Proof. unfold unit_of. apply unit_k. Qed.
  Lemma freestream_k V a b : freestream (k * V) a b = vscale k (freestream V a b).
  Proof. unfold freestream, vscale. cbn [vx vy vz]. rnum. apply vec_eq; cbn [vx vy vz]; unfold Rdiv; ring. Qed.

  Lemma ratio_k x y : (k * y) / (k * x) = y / x.
  Proof.
    unfold Rdiv. rewrite Rinv_mult. transitivity (k * / k * (y * / x)); [ring|]. rewrite Rinv_r by lra. ring.
  Qed.
  Lemma atan2_k x y : Ratan2 (k * y) (k * x) = Ratan2 y x.
  Proof.
    unfold Ratan2. rewrite ratio_k.
    assert (P : forall z, 0 < k * z <-> 0 < z).
    { intros z. split; intros H; [|now apply Rmult_lt_0_compat].
      apply Rmult_lt_reg_l with k; auto. rewrite Rmult_0_r. auto. }
    assert (Q : forall z, k * z < 0 <-> z < 0).
    { intros z. split; intros H.
      - apply Rmult_lt_reg_l with k; auto. rewrite Rmult_0_r. auto.
      - rewrite <- (Rmult_0_r k). now apply Rmult_lt_compat_l. }
    assert (S : forall z, 0 <= k * z <-> 0 <= z).
    { intros z. split; intros H.
      - apply Rmult_le_reg_l with k; auto. rewrite Rmult_0_r. auto.
      - apply Rmult_le_pos; lra. }
    assert (W : forall (P Q : Prop) (d : {P} + {~ P}) (e : {Q} + {~ Q}) (a b a' b' : R),
      (P <-> Q) -> (P -> a = a') -> (~ P -> b = b') -> (if d then a else b) = (if e then a' else b')).
    { intros P0 Q0 d e a b a' b' I1 I2 I3. destruct d, e; tauto. }
    apply W; [apply P|auto|intros _].
    apply W; [apply Q|intros _|intros _].
    - apply W; [apply S|auto|auto].
    - apply W; [apply P|auto|intros _]. apply W; [apply Q|auto|auto].
  Qed.

  (** *** The flow *)
  Lemma scaled_get d d' key : scaled m k d d' -> dget (an d') key =
     option_map (fun x => if (key =? "rho")%string then m * x
                          else if ((key =? "V_mag") || (key =? "roll_rate") || (key =? "pitch_rate")
                                   || (key =? "yaw_rate"))%string then k * x
                          else x) (dget (an d) key).
  Proof. intros [H _]. apply H. Qed.
  Lemma scaled_rates d d' : scaled m k d d' -> body_rates (an d') = vscale k (body_rates (an d)).
  Proof.
    intros H. unfold body_rates, entry, vscale. cbn [vx vy vz].
    rewrite !(scaled_get _ _ _ H). cbn [String.eqb Ascii.eqb Bool.eqb orb].
    apply vec_eq; cbn [vx vy vz]; match goal with |- context [dget (an d) ?q] => destruct (dget (an d) q) end;
      cbn [option_map]; rnum; ring.
  Qed.
  Lemma scaled_given d d' : scaled m k d d' -> given_aero (Some d) -> given_aero (Some d').
  Proof.
    intros H (d0 & E & G). inversion E; subst d0. exists d'. split; auto. destruct H as [H1 H2]. destruct G as [G|G].
    - left. intros K. destruct (an d) as [|[key x] l] eqn:Ed; [congruence|].
      specialize (H1 key). rewrite K in H1. simpl in H1. rewrite String.eqb_refl in H1. discriminate.
    - right. rewrite H2. destruct (als d); simpl; congruence.
  Qed.
  Lemma broadcast_map {A B} (f : A -> B) n rows :
    broadcast n (map f rows) = match broadcast n rows with Ok r => Ok (map f r) | Err e => Err e end.
  Proof.
    assert (E : forall n x, map f (repeat x n) = repeat (f x) n) by (intros q x; induction q; simpl; congruence).
    destruct rows as [|x [|y l]]; cbn [map broadcast].
    - destruct n; reflexivity.
    - rewrite E. reflexivity.
    - cbn [List.length]. rewrite map_length. destruct (Nat.eqb _ _); reflexivity.
  Qed.
  Lemma vmean_k v : vmean (map (vscale k) v) = vscale k (vmean (T := R) v).
  Proof. unfold vmean. rewrite vsum_scale, map_length, !vdivs_scale, !vscale_scale. f_equal. apply Rmult_comm. Qed.

  Lemma base_flow_scaled n d d' : scaled m k d d' ->
    base_flow n d' = match base_flow n d with
                     | Ok (v, u, rho) => Ok (map (vscale k) v, u, map (Rmult m) rho)
                     | Err e => Err e
                     end.
  Proof.
    intros H. unfold base_flow, entry. rewrite !(scaled_get _ _ _ H). destruct H as [_ H]. rewrite H.
    cbn [String.eqb Ascii.eqb Bool.eqb orb].
    replace (match option_map (fun x : R => x) (dget (an d) "alpha") with Some x => x | None => 0 end)
      with (match dget (an d) "alpha" with Some x => x | None => 0 end) by (destruct (dget (an d) "alpha"); reflexivity).
    replace (match option_map (fun x : R => x) (dget (an d) "beta") with Some x => x | None => 0 end)
      with (match dget (an d) "beta" with Some x => x | None => 0 end) by (destruct (dget (an d) "beta"); reflexivity).
    generalize (match dget (an d) "alpha" with Some x => x | None => 0 end) as al.
    generalize (match dget (an d) "beta" with Some x => x | None => 0 end) as be. intros be al.
    destruct (als d) as [rows|]; cbn [option_map].
    - rewrite broadcast_map. destruct (broadcast n rows) as [r|e]; cbn [rbind]; [|reflexivity].
      rewrite !map_map. cbn [fst snd]. f_equal. f_equal. f_equal.
      destruct (dget (an d) "V_mag") as [V|]; cbn [option_map].
      + now rewrite freestream_k, unit_of_k.
      + rewrite <- (map_map snd (vscale k)), vmean_k. apply unit_k.
    - destruct (dget (an d) "V_mag") as [V|]; cbn [option_map]; [|reflexivity].
      destruct (dget (an d) "rho") as [rho|]; cbn [option_map]; [|reflexivity].
      rewrite freestream_k, unit_of_k.
      assert (E : forall {A B} (f : A -> B) n x, map f (repeat x n) = repeat (f x) n).
      { intros A B f q x; induction q; simpl; congruence. }
      rewrite !E. reflexivity.
  Qed.
  Lemma at_section_scaled w cg v sec : at_section (vscale k w) cg (vscale k v) sec = vscale k (at_section w cg v sec).
  Proof. unfold at_section. rewrite vcross_scale_l, vscale_sub. reflexivity. Qed.

  (** *** The cells *)
  Definition scale_cell (c : cell R) : cell R :=
    MkCell (c_sec c) (vscale k (c_v c)) (m * c_rho c) (c_delta c) (c_eff c).
  Lemma cells_of_scaled (secs : list (section R)) : forall v rho d e,
    cells_of secs (map (vscale k) v) (map (Rmult m) rho) d e = map scale_cell (cells_of secs v rho d e).
  Proof.
    induction secs as [|s secs IH]; intros [|v0 v] [|r0 rho] [|d0 d] [|e0 e]; cbn [map cells_of]; auto.
    rewrite IH. reflexivity.
  Qed.
  Lemma a_entry_scaled u same ci cj :
    a_entry u same (scale_cell ci) (scale_cell cj) = k * a_entry u same ci cj.
  Proof.
    unfold a_entry, scale_cell. cbn [c_v c_sec]. rewrite norm_k, vcross_scale_l, norm_k.
    destruct same; rnum; ring.
  Qed.
  Lemma a_matrix_scaled u cs : a_matrix u (map scale_cell cs) = map (map (Rmult k)) (a_matrix u cs).
  Proof.
    unfold a_matrix. rewrite mapi_map, map_mapi. unfold mapi. apply mapi_from_ext. intros i ci.
    fold (mapi (fun j cj => a_entry u (i =? j)%nat (scale_cell ci) cj) (map scale_cell cs)).
    rewrite mapi_map.
    change (mapi_from (fun j cj => a_entry u (i =? j)%nat ci cj) 0 cs) with (mapi (fun j cj => a_entry u (i =? j)%nat ci cj) cs).
    rewrite map_mapi. unfold mapi. apply mapi_from_ext. intros. apply a_entry_scaled.
  Qed.
  Lemma b_entry_scaled c : b_entry (scale_cell c) = k * k * b_entry c.
  Proof.
    unfold b_entry, eff_flap, scale_cell. cbn [c_v c_sec c_eff c_delta]. rewrite norm_k, !vdot_scale_l. rnum.
    rewrite ratio_k. ring.
  Qed.

  Lemma row_times_scaled row x : row_times (map (Rmult k) row) x = k * row_times row x.
  Proof.
    unfold row_times. revert x. induction row as [|a row IH]; intros [|y x]; cbn [map map2]; rewrite ?nsum_nil; try ring.
    rewrite !nsum_cons, IH. ring.
  Qed.
  Lemma row_times_scaled_r j row x : row_times row (map (Rmult j) x) = j * row_times row x.
  Proof.
    unfold row_times. revert x. induction row as [|a row IH]; intros [|y x]; cbn [map map2]; rewrite ?nsum_nil; try ring.
    rewrite !nsum_cons, IH. ring.
  Qed.
  Lemma solves_scaled A b x : solves A b x ->
    solves (map (map (Rmult k)) A) (map (Rmult (k * k)) b) (map (Rmult k) x).
  Proof.
    intros [H1 H2]. split; [now rewrite !map_length|]. rewrite <- H2, !map_map. apply map_ext. intros row.
    rewrite row_times_scaled, row_times_scaled_r. ring.
  Qed.
  Lemma map_inv_k x : map (Rmult (/ k)) (map (Rmult k) x) = x.
  Proof. rewrite map_map. rewrite <- (map_id x) at 2. apply map_ext. intros y. field. lra. Qed.
  Lemma map_inv_k' x : map (Rmult k) (map (Rmult (/ k)) x) = x.
  Proof. rewrite map_map. rewrite <- (map_id x) at 2. apply map_ext. intros y. field. lra. Qed.
  Lemma unscale A b x : solves (map (map (Rmult k)) A) (map (Rmult (k * k)) b) x ->
    solves A b (map (Rmult (/ k)) x).
  Proof.
    intros [H1 H2]. rewrite map_length in H1. split; [now rewrite map_length|].
    rewrite map_map in H2. 
    assert (E : map (Rmult (k * k)) (map (fun row => row_times row (map (Rmult (/ k)) x)) A) = map (Rmult (k * k)) b).
    { rewrite <- H2, map_map. apply map_ext. intros row. rewrite row_times_scaled, row_times_scaled_r. field. lra. }
    assert (I : forall l l', map (Rmult (k * k)) l = map (Rmult (k * k)) l' -> l = l').
    { clear -Hk. induction l as [|a l IH]; intros [|b l'] H; try discriminate; auto. cbn [map] in H.
      injection H as H H'. f_equal; auto. apply Rmult_eq_reg_l with (k * k); auto. nra. }
    now apply I.
  Qed.
  Lemma unique_scaled A b x : (solves A b x /\ forall y, solves A b y -> y = x) ->
    solves (map (map (Rmult k)) A) (map (Rmult (k * k)) b) (map (Rmult k) x) /\
    forall y, solves (map (map (Rmult k)) A) (map (Rmult (k * k)) b) y -> y = map (Rmult k) x.
  Proof.
    intros [H1 H2]. split; [now apply solves_scaled|]. intros y Hy. apply unscale in Hy. apply H2 in Hy.
    rewrite <- Hy. symmetry. apply map_inv_k'.
  Qed.
  Lemma unique_unscaled A b x :
    (solves (map (map (Rmult k)) A) (map (Rmult (k * k)) b) x /\
     forall y, solves (map (map (Rmult k)) A) (map (Rmult (k * k)) b) y -> y = x) ->
    solves A b (map (Rmult (/ k)) x) /\ forall y, solves A b y -> y = map (Rmult (/ k)) x.
  Proof.
    intros [H1 H2]. split; [now apply unscale|]. intros y Hy. apply solves_scaled in Hy. apply H2 in Hy.
    rewrite <- Hy. symmetry. apply map_inv_k.
  Qed.
  Lemma solver_scaled ls u cs : exact_solver ls ->
    ls (a_matrix u (map scale_cell cs)) (map b_entry (map scale_cell cs))
    = option_map (map (Rmult k)) (ls (a_matrix u cs) (map b_entry cs)).
  Proof.
    intros He. destruct (a_matrix_square u cs) as [S1 L1]. destruct (a_matrix_square u (map scale_cell cs)) as [S2 L2].
    pose proof (He _ (map b_entry cs) S1) as P1. pose proof (He _ (map b_entry (map scale_cell cs)) S2) as P2.
    rewrite map_length in P1, P2. specialize (P1 (eq_sym L1)). specialize (P2 (eq_sym L2)).
    assert (Eb : map b_entry (map scale_cell cs) = map (Rmult (k * k)) (map b_entry cs)).
    { rewrite !map_map. apply map_ext. intros; apply b_entry_scaled. }
    rewrite Eb, a_matrix_scaled in *.
    destruct (ls (a_matrix u cs) (map b_entry cs)) as [x|], (ls (map (map (Rmult k)) (a_matrix u cs)) _) as [y|]; cbn [option_map]; auto.
    - apply unique_scaled in P1. f_equal. destruct P1 as [P1 _], P2 as [_ P2]. symmetry. now apply P2.
    - exfalso. apply P2. eexists. apply unique_scaled. exact P1.
    - exfalso. apply P1. eexists. apply unique_unscaled. exact P2.
  Qed.

  (** *** The loads *)
  Lemma total_velocity_scaled u cs gam i ci :
    total_velocity u (map scale_cell cs) (map (Rmult k) gam) i (scale_cell ci)
    = vscale k (total_velocity u cs gam i ci).
  Proof.
    unfold total_velocity. rewrite vscale_add, <- vsum_scale, mapi_map. cbn [scale_cell c_v c_sec]. f_equal. f_equal.
    generalize (mapi (fun j cj => induced u (Nat.eqb i j) (c_sec ci) (c_sec cj)) cs). intros ws. revert ws.
    induction gam as [|y gam IH]; intros [|w ws]; cbn [map map2]; auto. rewrite IH, vscale_scale. reflexivity.
  Qed.
  Definition scale_sol (x : cell_sol R) : cell_sol R :=
    let q := m * (k * k) in
    MkSol (vscale k (so_vi x)) (so_alpha x) (so_cl x) (so_cd x) (so_cm x) (vscale q (so_force x))
          (vscale q (so_par x)) (vscale q (so_moment x)) (vscale q (so_moment_par x)).
  Lemma solve_cell_scaled cg y vi c :
    solve_cell cg (k * y) (vscale k vi) (scale_cell c) = scale_sol (solve_cell cg y vi c).
  Proof.
    unfold solve_cell. cbv zeta. unfold scale_cell. cbn [c_sec c_v c_rho c_delta].
    rewrite !vdot_scale_l. change natan2 with Ratan2. change (@nmul R Rnum) with Rmult. rewrite atan2_k, !norm_k.
    set (al := Ratan2 _ _). set (cl := section_cl _ al). set (cd := section_cd _ cl _). set (cm := section_cm _ al _).
    set (s := c_sec c).
    set (f := vscale (c_rho c * y) (vcross vi (vsub (s_r2 s) (s_r1 s)))).
    assert (Ef : vscale (m * c_rho c * (k * y)) (vcross (vscale k vi) (vsub (s_r2 s) (s_r1 s))) = vscale (m * (k * k)) f).
    { unfold f. rewrite vcross_scale_l, !vscale_scale. f_equal. ring. }
    rewrite Ef.
    match goal with |- context [vdivs (vscale ?a (vscale k vi)) (k * vnorm vi)] =>
      assert (Ep : vdivs (vscale a (vscale k vi)) (k * vnorm vi)
        = vscale (m * (k * k)) (vdivs (vscale (ndec 5 1 * c_rho c * vnorm (c_v c) * vnorm (c_v c) * cd * s_dS s) vi) (vnorm vi))) end.
    { rewrite !vdivs_scale, !vscale_scale. f_equal. rnum. rewrite Rinv_mult. generalize (/ vnorm vi). intros i. field. lra. }
    rewrite Ep. unfold scale_sol. cbn [so_vi so_alpha so_cl so_cd so_cm so_force so_par so_moment so_moment_par].
    rewrite !vcross_scale_r. f_equal.
    rewrite vscale_add, vscale_scale. f_equal. f_equal. rnum. ring.
  Qed.
  Lemma solve_cells_scaled u cg cs gam :
    solve_cells u cg (map scale_cell cs) (map (Rmult k) gam) = map scale_sol (solve_cells u cg cs gam).
  Proof.
    unfold solve_cells.
    assert (G : forall all gall cs gam i,
      solve_cells_from u cg (map scale_cell all) (map (Rmult k) gall) i (map scale_cell cs) (map (Rmult k) gam)
      = map scale_sol (solve_cells_from u cg all gall i cs gam)).
    { intros all gall. induction cs0 as [|c cs0 IH]; intros [|y g0] i; cbn [map solve_cells_from]; auto.
      rewrite IH, total_velocity_scaled, solve_cell_scaled. reflexivity. }
    apply G.
  Qed.
  Lemma assemble_scaled u sols :
    let q := m * (k * k) in
    let a := assemble u sols in let a' := assemble u (map scale_sol sols) in
    r_inviscid a' = fm_times q (r_inviscid a) /\ r_viscous a' = fm_times q (r_viscous a) /\
    r_total a' = fm_times q (r_total a) /\ r_LoD a' = FL (r_total a') / FD (r_total a') /\
    r_LoD a = FL (r_total a) / FD (r_total a).
  Proof.
    intros q a a'. unfold a, a', assemble. cbn [r_inviscid r_viscous r_total r_LoD].
    rewrite !make_fm_add, !map_map. cbn [scale_sol so_force so_par so_moment so_moment_par]. fold q.
    assert (V : forall f : cell_sol R -> vec3 R, vsum (map (fun x => vscale q (f x)) sols) = vscale q (vsum (map f sols))).
    { intros f. rewrite <- vsum_scale, map_map. reflexivity. }
    rewrite (V (@so_force R)), (V (@so_par R)), (V (@so_moment R)), (V (@so_moment_par R)), <- !vscale_add, !make_fm_scale. auto.
  Qed.

  Lemma similarity ls g cg stype d d' c s : exact_solver ls -> g_num g = List.length (g_sections g) ->
    given_aero (Some d) -> scaled m k d d' ->
    let a := ll_solve ls g cg stype (Some d) c s in
    let a' := ll_solve ls g cg stype (Some d') c s in
    fst a' = fst a /\
    forall r, fst a = Ok r ->
      exists res res' gam, l_results (snd a) = Some res /\ l_results (snd a') = Some res' /\
        l_gamma (snd a) = Some gam /\ l_gamma (snd a') = Some (map (Rmult k) gam) /\
        r_inviscid res' = fm_times (m * k ^ 2) (r_inviscid res) /\
        r_viscous res' = fm_times (m * k ^ 2) (r_viscous res) /\
        r_total res' = fm_times (m * k ^ 2) (r_total res) /\
        (m <> 0 -> FD (r_total res) <> 0 -> r_LoD res' = r_LoD res).
  Proof.
    intros He Hn Ha Hsc. cbv zeta.
    pose proof (process_aero_base g cg d s Hn Ha) as P.
    pose proof (process_aero_base g cg d' s Hn (scaled_given _ _ Hsc Ha)) as P'.
    rewrite (base_flow_scaled _ _ _ Hsc), (scaled_rates _ _ Hsc) in P'.
    unfold ll_solve, sbind.
    destruct (base_flow (g_num g) d) as [[[v u] rho]|e].
    2:{ rewrite P, P'. split; [reflexivity|]. intros r Hr. discriminate Hr. }
    destruct P as (s1 & -> & A1 & A2 & A3 & A4 & A5 & _). destruct P' as (s2 & -> & B1 & B2 & B3 & B4 & B5 & _).
    assert (Ev : l_v s2 = map (vscale k) (l_v s1)).
    { rewrite A1, B1. clear. revert v. induction (g_sections g) as [|sec l IH]; intros [|v0 v]; cbn [map map2]; auto.
      rewrite IH, at_section_scaled. reflexivity. }
    assert (Er : l_rho s2 = map (Rmult m) (l_rho s1)) by congruence.
    assert (Eu : l_uinf s2 = l_uinf s1) by congruence.
    assert (Ed : l_delta s2 = l_delta s1) by congruence. assert (Ee : l_eff s2 = l_eff s1) by congruence.
    clear A1 A2 A3 A4 A5 B1 B2 B3 B4 B5.
    assert (I2 : fst (process_control g c s1) = Ok tt /\ fst (process_control g c s2) = Ok tt /\
                 cells g (snd (process_control g c s2)) = map scale_cell (cells g (snd (process_control g c s1))) /\
                 l_uinf (snd (process_control g c s2)) = l_uinf (snd (process_control g c s1))).
    { unfold process_control, cells. destruct (opt_truthy dtruthy c); unfold smod, sret; cbn [fst snd set_control l_v l_rho l_delta l_eff l_uinf].
      - rewrite Ev, Er, Eu, cells_of_scaled. auto.
      - rewrite Ev, Er, Eu, Ed, Ee, cells_of_scaled. auto. }
    destruct I2 as (E1 & E2 & Ec & Eu2).
    destruct (process_control g c s1) as [o1 t1], (process_control g c s2) as [o2 t2]. cbn [fst snd] in *. subst o1 o2.
    destruct (String.eqb stype "linear"); [|split; [reflexivity|]; intros r Hr; discriminate Hr].
    unfold linear_solve. rewrite Ec, Eu2, (solver_scaled _ _ _ He).
    destruct (ls (a_matrix (l_uinf t1) (cells g t1)) (map b_entry (cells g t1))) as [gam|]; cbn [option_map fst snd].
    2:{ split; [reflexivity|]. intros r Hr. discriminate Hr. }
    split; [reflexivity|]. intros r _. eexists _, _, gam. split; [reflexivity|]. split; [reflexivity|].
    split; [reflexivity|]. split; [reflexivity|]. rewrite solve_cells_scaled.
    destruct (assemble_scaled (l_uinf t1) (solve_cells (l_uinf t1) cg (cells g t1) gam)) as (Q1 & Q2 & Q3 & Q4 & Q5).
    replace (m * k ^ 2) with (m * (k * k)) by ring.
    refine (conj Q1 (conj Q2 (conj Q3 _))). intros Hm HD. rewrite Q4, Q5, Q3. unfold fm_times. cbn [FL FD].
    field. split; auto. split; [lra|auto].
  Qed.
End Scale.
