(** The response of the wings to their controls in a given flow (C73) and wings that carry no
    load (C74). *)
From Coq Require Import Reals ZArith String Bool Arith Lia Lra List.
From Verif Require Import Base Num RVec Geometry Grid LLModel Spec_Grid Spec_LL Spec_BS Spec_Resp LL_state LL_R LL_solve LL_props LL_thm LL_thm3 Linalg Linalg2.
Import ListNotations.
Local Open Scope R_scope.

(** *** An exact solver answers for every right-hand side or for none *)
Lemma exact_is_gauss ls A b : exact_solver ls -> square A -> List.length b = List.length A -> ls A b = gauss_solver A b.
Proof.
  intros He Hs Hl. pose proof (He A b Hs Hl) as P. pose proof (gauss_exact A b Hs Hl) as Q.
  destruct (ls A b) as [x|], (gauss_solver A b) as [y|]; auto.
  - destruct P as [P _], Q as [_ Q]. f_equal. now apply Q.
  - exfalso. apply Q. eauto.
  - exfalso. apply P. eauto.
Qed.
Lemma any_rhs ls A b b' x : exact_solver ls -> square A -> List.length b = List.length A -> List.length b' = List.length A ->
  ls A b = Some x -> exists y, ls A b' = Some y.
Proof.
  intros He Hs Hb Hb' H. rewrite exact_is_gauss in * by auto.
  pose proof (solver_coef A b b' Hb Hb') as K. rewrite H in K. specialize (K ltac:(discriminate)).
  destruct (gauss_solver A b'); [eauto|congruence].
Qed.

(** *** Sections in a given flow *)
Definition place : Type := (section R * vec3 R * R)%type.
Definition p_sec (p : place) : section R := fst (fst p).
Definition p_v (p : place) : vec3 R := snd (fst p).
Definition p_rho (p : place) : R := snd p.
Definition in_place (c : dict R) (p : place) : cell R :=
  MkCell (p_sec p) (p_v p) (p_rho p) (degrees (commanded c (p_sec p))) (efficiency (commanded c (p_sec p))).
Fixpoint places (secs : list (section R)) (v : list (vec3 R)) (rho : list R) : list place :=
  match secs, v, rho with
  | s :: secs, v0 :: v, r0 :: rho => (s, v0, r0) :: places secs v rho
  | _, _, _ => []
  end.
Lemma cells_places c secs : forall v rho,
  cells_of secs v rho (map (fun s => degrees (commanded c s)) secs) (map (fun s => efficiency (commanded c s)) secs)
  = map (in_place c) (places secs v rho).
Proof. induction secs as [|s secs IH]; intros [|v0 v] [|r0 rho]; cbn [map cells_of places]; auto. now rewrite IH. Qed.
Lemma places_secs secs : forall v rho p, In p (places secs v rho) -> In (p_sec p) secs.
Proof.
  induction secs as [|s secs IH]; intros [|v0 v] [|r0 rho] p; cbn [places In]; try tauto.
  intros [<- | H]; [left; reflexivity|right; eauto].
Qed.

Lemma matrix_places u c c' ps : a_matrix u (map (in_place c) ps) = a_matrix u (map (in_place c') ps).
Proof.
  unfold a_matrix. rewrite !mapi_map. apply mapi_ext. intros i p. rewrite !mapi_map. apply mapi_ext. intros j q. reflexivity.
Qed.

Definition slope (p : place) : R :=
  vnorm (p_v p) ^ 2 * s_dS (p_sec p) * across (p_sec p) (fun e => e (s_cla (p_sec p))) * s_flap_eff (p_sec p) * (PI / 180).
Definition b_zero (p : place) : R :=
  vnorm (p_v p) ^ 2 * s_dS (p_sec p) *
  lift_coefficient (p_sec p) (atan (vdot (p_v p) (s_un (p_sec p)) / vdot (p_v p) (s_ua (p_sec p)))) 0.
Lemma b_moderate c p : Rabs (commanded c (p_sec p)) <= 11 -> b_entry (in_place c p) = b_zero p + slope p * commanded c (p_sec p).
Proof.
  intros H. rewrite b_entry_spec. unfold eff_flap, in_place. cbn [c_v c_sec c_eff c_delta]. rnum.
  assert (E : efficiency (commanded c (p_sec p)) = 1) by (unfold efficiency; destruct (Rlt_dec 11 _); lra).
  rewrite E. unfold b_zero, slope, lift_coefficient, across, degrees. field.
Qed.

(** *** Circulation by superposition *)
Definition mix (key : string) (s : section R) : R :=
  if String.eqb key "aileron" then s_mix_a s else if String.eqb key "elevator" then s_mix_e s
  else if String.eqb key "rudder" then s_mix_r s else if String.eqb key "flap" then s_mix_f s else 0.
Definition rhs (ps : list place) (key : string) : list R :=
  if String.eqb key "" then map b_zero ps else map (fun p => slope p * mix key (p_sec p)) ps.
Lemma rhs_length ps key : List.length (rhs ps key) = List.length ps.
Proof. unfold rhs. destruct (String.eqb key ""); apply map_length. Qed.

Section Superposition.
  Variables (ls : list (list R) -> list R -> option (list R)) (u : vec3 R) (ps : list place).
  Hypothesis He : exact_solver ls.
  Let A := a_matrix u (map (in_place []) ps).
  Let n := List.length ps.
  Lemma A_len : List.length A = n.
  Proof. unfold A, n. destruct (a_matrix_square u (map (in_place []) ps)) as [_ ->]. apply map_length. Qed.
  Lemma A_sq : square A. Proof. apply a_matrix_square. Qed.
  Definition answer (key : string) : list R := match ls A (rhs ps key) with Some x => x | None => [] end.
  Definition unit_response : list (string -> R) := map (fun i key => nth i (answer key) 0) (seq 0 n).

  Lemma superposition c b0 x0 : List.length b0 = n -> ls A b0 = Some x0 ->
    Forall (fun p => Rabs (commanded c (p_sec p)) <= 11) ps ->
    ls A (map b_entry (map (in_place c) ps)) = Some (map (fun k => superposed k c) unit_response).
  Proof.
    intros Hb0 Hx0 Hc.
    assert (An : forall key, List.length (answer key) = n /\ map (fun row => row_times row (answer key)) A = rhs ps key).
    { intros key. unfold answer.
      assert (Lr : List.length (rhs ps key) = List.length A) by (rewrite rhs_length, A_len; reflexivity).
      destruct (any_rhs ls A b0 (rhs ps key) x0 He A_sq) as [y Hy]; try congruence; [rewrite A_len; congruence|].
      pose proof (He A (rhs ps key) A_sq Lr) as P. rewrite Hy in P |- *. destruct P as [[P1 P2] _].
      split; [rewrite P1; apply A_len|exact P2]. }
    assert (Lb : List.length (map b_entry (map (in_place c) ps)) = List.length A) by (rewrite !map_length, A_len; reflexivity).
    destruct (any_rhs ls A b0 (map b_entry (map (in_place c) ps)) x0 He A_sq) as [y Hy]; try assumption; [rewrite A_len; congruence|].
    pose proof (He A _ A_sq Lb) as P. rewrite Hy in P |- *. destruct P as [_ P]. f_equal. symmetry. apply P. clear P Hy y.
    split; [unfold unit_response; rewrite !map_length, seq_length, A_len; reflexivity|].
    unfold unit_response. rewrite map_map. unfold superposed.
    apply nth_error_ext. intros i. rewrite !nth_error_map.
    destruct (nth_error A i) as [row|] eqn:Er; cbn [option_map].
    2:{ apply nth_error_None in Er. rewrite A_len in Er. symmetry.
        destruct (nth_error ps i) eqn:Ep; auto. assert (Q : (i < List.length ps)%nat) by (apply nth_error_Some; congruence). unfold n in Er. lia. }
    assert (Hi : (i < n)%nat) by (rewrite <- A_len; apply nth_error_Some; congruence).
    destruct (nth_error ps i) as [p|] eqn:Ep; [|apply nth_error_None in Ep; unfold n in Hi; lia]. cbn [option_map]. f_equal.
    assert (Rk : forall key, row_times row (answer key) = (if String.eqb key "" then b_zero p else slope p * mix key (p_sec p))).
    { intros key. destruct (An key) as [_ K]. apply (f_equal (fun l => nth_error l i)) in K. rewrite nth_error_map, Er in K. cbn [option_map] in K.
      unfold rhs in K. destruct (String.eqb key ""); rewrite nth_error_map, Ep in K; cbn [option_map] in K; congruence. }
    assert (Nk : forall key, map (fun j => nth j (answer key) 0) (seq 0 n) = answer key) by (intros key; apply map_nth_seq, An).
    rewrite !(row_times_add row (seq 0 n)).
    assert (M : forall e key, row_times row (map (fun j => e * nth j (answer key) 0) (seq 0 n)) = row_times row (answer key) * e).
    { intros e key. pose proof (row_times_mul row (seq 0 n) (fun j => nth j (answer key) 0) e) as K. rewrite Nk in K. rewrite <- K. f_equal. apply map_ext. intros. ring. }
    rewrite !M, Nk, !Rk. cbn [String.eqb Ascii.eqb Bool.eqb].
    rewrite (b_moderate c p).
    - unfold commanded, mix. cbn [String.eqb Ascii.eqb Bool.eqb]. ring.
    - rewrite Forall_forall in Hc. apply Hc. eapply nth_error_In; eauto.
  Qed.
End Superposition.

(** *** Quadratic forces *)
Definition q3 (a b q : vec3 R) (t : R) : vec3 R := vadd a (vadd (vscale t b) (vscale (t * t) q)).
Definition at_t (gb : list (R * R)) (t : R) : list R := map (fun ab => fst ab + t * snd ab) gb.

Lemma wash_affine (ws : list (vec3 R)) : forall gb, exists a b, forall t,
  vsum (map2 vscale (at_t gb t) ws) = vadd a (vscale t b).
Proof.
  induction ws as [|w ws IH]; intros [|[x y] gb].
  1-3: exists vzero, vzero; intros t; cbn [at_t map map2]; rewrite vsum_nil; vring.
  destruct (IH gb) as (a & b & H). exists (vadd (vscale x w) a), (vadd (vscale y w) b). intros t.
  cbn [at_t map map2 fst snd]. rewrite vsum_cons. fold (at_t gb t). rewrite H. vring.
Qed.
Lemma velocity_affine u all gb i p : exists a b, forall t c,
  total_velocity u (map (in_place c) all) (at_t gb t) i (in_place c p) = vadd a (vscale t b).
Proof.
  destruct (wash_affine (mapi (fun j q => induced u (Nat.eqb i j) (p_sec p) (p_sec q)) all) gb) as (a & b & H).
  exists (vadd (p_v p) a), b. intros t c. unfold total_velocity. rewrite mapi_map. cbn [in_place c_v c_sec]. rewrite H. vring.
Qed.
Lemma forces_quadratic u cg all gall : forall ps gb i, exists a b q, forall t c,
  vsum (map (@so_force R) (solve_cells_from u cg (map (in_place c) all) (at_t gall t) i (map (in_place c) ps) (at_t gb t))) = q3 a b q t.
Proof.
  induction ps as [|p ps IH]; intros [|[x y] gb] i.
  1-3: exists vzero, vzero, vzero; intros t c; cbn [at_t map solve_cells_from]; rewrite vsum_nil; unfold q3; vring.
  destruct (IH gb (S i)) as (a & b & q & H). destruct (velocity_affine u all gall i p) as (va & vb & V).
  set (dl := vsub (s_r2 (p_sec p)) (s_r1 (p_sec p))).
  exists (vadd (vscale (p_rho p * x) (vcross va dl)) a),
         (vadd (vadd (vscale (p_rho p * x) (vcross vb dl)) (vscale (p_rho p * y) (vcross va dl))) b),
         (vadd (vscale (p_rho p * y) (vcross vb dl)) q).
  intros t c. cbn [at_t map solve_cells_from fst snd]. rewrite vsum_cons. fold (at_t gb t). rewrite H, V.
  unfold solve_cell. cbv zeta. cbn [so_force in_place c_sec c_rho c_v]. fold dl. unfold q3. generalize dl. intros w. vring.
Qed.

Lemma reading_quadratic u a b q M : forall comp, In comp force_readings -> forall t,
  comp (make_fm u (q3 a b q t) M) = comp (make_fm u a vzero) + t * comp (make_fm u b vzero) + t * t * comp (make_fm u q vzero).
Proof.
  intros comp Hc t. unfold make_fm, q3.
  rewrite wind_axes_add, wind_axes_add, !wind_axes_scale.
  destruct (wind_axes u a) as [[? ?] ?], (wind_axes u b) as [[? ?] ?], (wind_axes u q) as [[? ?] ?].
  unfold force_readings in Hc. cbn [In] in Hc.
  destruct Hc as [<- | [<- | [<- | [<- | [<- | [<- | []]]]]]]; cbn [FL FD FS FX FY FZ]; vunf; ring.
Qed.

Lemma central_difference_exact p0 p1 p2 t h : h <> 0 ->
  let f x := p0 + x * p1 + x * x * p2 in
  derivable_pt_lim f t ((f (t + h) - f (t - h)) / (2 * h)).
Proof.
  intros Hh f. replace ((f (t + h) - f (t - h)) / (2 * h)) with (p1 + 2 * t * p2) by (unfold f; field; auto).
  intros eps Heps. assert (Hd : 0 < eps / (Rabs p2 + 1)).
  { apply Rdiv_lt_0_compat; [lra|]. pose proof (Rabs_pos p2). lra. }
  exists (mkposreal _ Hd). intros k Hk Hk2. cbn [pos] in Hk2.
  replace ((f (t + k) - f t) / k - (p1 + 2 * t * p2)) with (k * p2) by (unfold f; field; auto).
  rewrite Rabs_mult. pose proof (Rabs_pos p2). pose proof (Rabs_pos k).
  apply Rle_lt_trans with (Rabs k * (Rabs p2 + 1)); [nra|].
  apply (Rmult_lt_compat_r (Rabs p2 + 1)) in Hk2; [|lra]. unfold Rdiv in Hk2. rewrite Rmult_assoc, Rinv_l, Rmult_1_r in Hk2 by lra. exact Hk2.
Qed.

(** *** A solve in a given flow, step by step *)
Definition given_places (g : grid R) (cg : vec3 R) (d : aero_state R) (v : list (vec3 R)) (rho : list R) : list place :=
  places (g_sections g) (map2 (at_section (body_rates (an d)) cg) v (g_sections g)) rho.
Lemma solve_given ls g cg d (c : dict R) s : g_num g = List.length (g_sections g) -> given_aero (Some d) -> c <> [] ->
  match base_flow (g_num g) d with
  | Err e => fst (ll_solve ls g cg "linear" (Some d) (Some c) s) = Err e
  | Ok (v, u, rho) =>
      let cs := map (in_place c) (given_places g cg d v rho) in
      match ls (a_matrix u cs) (map b_entry cs) with
      | None => fst (ll_solve ls g cg "linear" (Some d) (Some c) s) = Err LinAlgError
      | Some gam => exists s', ll_solve ls g cg "linear" (Some d) (Some c) s = (Ok TheResultsDict, s') /\
          l_gamma s' = Some gam /\ l_results s' = Some (assemble u (solve_cells u cg cs gam))
      end
  end.
Proof.
  intros Hn Ha Hc. pose proof (process_aero_base g cg d s Hn Ha) as P.
  unfold ll_solve, sbind. destruct (base_flow (g_num g) d) as [[[v u] rho]|e].
  2:{ rewrite P. reflexivity. }
  destruct P as (s1 & P & Ev & Eu & Er & _). rewrite P. cbv zeta.
  destruct (process_control_given g (c := Some c) s1) as (c' & Ec & E2).
  { exists c. auto. }
  injection Ec as <-. rewrite E2. cbn [String.eqb Ascii.eqb Bool.eqb]. cbv zeta.
  match goal with |- context [linear_solve ls g cg ?x] => set (s2 := x) end.
  assert (Ecells : cells g s2 = map (in_place c) (given_places g cg d v rho)).
  { unfold cells, s2. cbn [set_control l_v l_rho l_delta l_eff]. rewrite Ev, Er.
    replace (map (section_delta c) (g_sections g)) with (map (fun s => degrees (commanded c s)) (g_sections g)) by (apply map_ext; intros; symmetry; apply section_delta_spec).
    rewrite map_map.
    replace (map (fun x => deflection_eff (degrees (commanded c x))) (g_sections g)) with (map (fun s => efficiency (commanded c s)) (g_sections g)) by (apply map_ext; intros; symmetry; apply deflection_eff_spec).
    apply cells_places. }
  assert (Eu2 : l_uinf s2 = u) by exact Eu.
  unfold linear_solve. rewrite Ecells, Eu2. destruct (ls _ _) as [gam|]; [|reflexivity].
  eexists. split; [reflexivity|]. split; reflexivity.
Qed.

Lemma controls_do_not_decide ls g cg d (c c' : dict R) s s' : exact_solver ls ->
  g_num g = List.length (g_sections g) -> given_aero (Some d) -> c <> [] -> c' <> [] ->
  fst (ll_solve ls g cg "linear" (Some d) (Some c) s) = fst (ll_solve ls g cg "linear" (Some d) (Some c') s').
Proof.
  intros He Hn Ha Hc Hc'. pose proof (solve_given ls g cg d c s Hn Ha Hc) as P. pose proof (solve_given ls g cg d c' s' Hn Ha Hc') as P'.
  destruct (base_flow (g_num g) d) as [[[v u] rho]|e]; [|congruence]. cbv zeta in P, P'.
  set (ps := given_places g cg d v rho) in *. rewrite (matrix_places u c' c ps) in P'.
  destruct (a_matrix_square u (map (in_place c) ps)) as [S L].
  assert (L1 : forall k, List.length (map b_entry (map (in_place k) ps)) = List.length (a_matrix u (map (in_place c) ps))) by (intros; rewrite L, !map_length; reflexivity).
  destruct (ls _ (map b_entry (map (in_place c) ps))) as [x|] eqn:E1, (ls _ (map b_entry (map (in_place c') ps))) as [y|] eqn:E2.
  - destruct P as (? & -> & _), P' as (? & -> & _). reflexivity.
  - destruct (any_rhs ls _ _ _ _ He S (L1 c) (L1 c') E1) as [z Hz]. congruence.
  - destruct (any_rhs ls _ _ _ _ He S (L1 c') (L1 c) E2) as [z Hz]. congruence.
  - congruence.
Qed.

Lemma circulation_superposes ls g cg d : exact_solver ls -> g_num g = List.length (g_sections g) -> given_aero (Some d) ->
  exists G, forall (c : dict R) s s', c <> [] -> moderate g c ->
    ll_solve ls g cg "linear" (Some d) (Some c) s = (Ok TheResultsDict, s') ->
    l_gamma s' = Some (map (fun k => superposed k c) G).
Proof.
  intros He Hn Ha. destruct (base_flow (g_num g) d) as [[[v u] rho]|e] eqn:Eb.
  2:{ exists []. intros c s s' Hc _ H. pose proof (solve_given ls g cg d c s Hn Ha Hc) as P. rewrite Eb in P. rewrite H in P. discriminate P. }
  set (ps := given_places g cg d v rho). exists (unit_response ls u ps). intros c s s' Hc Hm H.
  pose proof (solve_given ls g cg d c s Hn Ha Hc) as P. rewrite Eb in P. cbv zeta in P. fold ps in P.
  rewrite (matrix_places u c [] ps) in P.
  destruct (ls _ (map b_entry (map (in_place c) ps))) as [gam|] eqn:El; [|rewrite H in P; discriminate P].
  destruct P as (s2 & P & Pg & _). rewrite H in P. injection P as <-. rewrite Pg, <- El.
  apply (superposition ls u ps He c _ gam) with (2 := El).
  - now rewrite !map_length.
  - apply Forall_forall. intros p Hp. unfold moderate in Hm. rewrite Forall_forall in Hm. apply Hm. eapply places_secs, Hp.
Qed.

Lemma along_superposed k c0 dc t c : along c0 dc t c ->
  superposed k c = superposed k c0 + t * (superposed k dc - k ""%string).
Proof. intros [_ H]. unfold superposed. rewrite !H. ring. Qed.

Lemma forces_along ls g cg d c0 dc : exact_solver ls -> g_num g = List.length (g_sections g) -> given_aero (Some d) ->
  exists F : (fm R -> R) -> R -> R,
    (forall t c s s', along c0 dc t c -> moderate g c ->
       ll_solve ls g cg "linear" (Some d) (Some c) s = (Ok TheResultsDict, s') ->
       exists r, read_ref s' TheResultsDict = Some r /\
         forall comp, In comp force_readings -> comp (r_inviscid r) = F comp t) /\
    (forall comp t h, h <> 0 -> derivable_pt_lim (F comp) t ((F comp (t + h) - F comp (t - h)) / (2 * h))).
Proof.
  intros He Hn Ha. destruct (base_flow (g_num g) d) as [[[v u] rho]|e] eqn:Eb.
  2:{ exists (fun _ t => 0 + t * 0 + t * t * 0). split; [|intros; now apply central_difference_exact].
      intros t c s s' [Hc _] _ H. pose proof (solve_given ls g cg d c s Hn Ha Hc) as P. rewrite Eb in P. rewrite H in P. discriminate P. }
  set (ps := given_places g cg d v rho).
  set (gb := map (fun k : string -> R => (superposed k c0, superposed k dc - k ""%string)) (unit_response ls u ps)).
  destruct (forces_quadratic u cg ps gb ps gb 0) as (a & b & q & Hq).
  exists (fun comp t => comp (make_fm u a vzero) + t * comp (make_fm u b vzero) + t * t * comp (make_fm u q vzero)).
  split; [|intros; now apply central_difference_exact].
  intros t c s s' Hal Hm H.
  pose proof (solve_given ls g cg d c s Hn Ha (proj1 Hal)) as P. rewrite Eb in P. cbv zeta in P. fold ps in P.
  assert (Em : forall c', a_matrix u (map (in_place c') ps) = a_matrix u (map (in_place []) ps)) by (intros; apply matrix_places).
  rewrite (Em c) in P.
  destruct (ls _ (map b_entry (map (in_place c) ps))) as [gam|] eqn:El; [|rewrite H in P; discriminate P].
  destruct P as (s2 & P & Pg & Pr). rewrite H in P. injection P as <-.
  assert (Eg : gam = at_t gb t).
  { assert (Hl : List.length (map b_entry (map (in_place c) ps)) = List.length ps) by (rewrite !map_length; reflexivity).
    pose proof (superposition ls u ps He c _ gam Hl El) as S. rewrite El in S.
    assert (Hf : Forall (fun p => Rabs (commanded c (p_sec p)) <= 11) ps).
    { apply Forall_forall. intros p Hp. unfold moderate in Hm. rewrite Forall_forall in Hm. apply Hm. eapply places_secs, Hp. }
    specialize (S Hf). injection S as ->. unfold at_t, gb. rewrite map_map. apply map_ext. intros k. cbn [fst snd]. now apply along_superposed. }
  eexists. cbn [read_ref]. split; [exact Pr|]. intros comp Hc. unfold assemble. cbn [r_inviscid]. subst gam.
  unfold solve_cells. rewrite Hq. now apply reading_quadratic.
Qed.

(** *** Wings that carry no load (C74) *)
Lemma rhs_alone ls g cg c s' loads : sized g s' -> controls_are g c s' -> operating ls g cg c s' loads ->
  map b_entry (cells g s') = map lift_alone loads.
Proof.
  intros Hz Hc O. pose proof Hz as (Lv & Lr & Ld & Le).
  destruct (cells_of_maps _ _ _ _ _ Lv Lr Ld Le) as (M1 & M2 & M3 & M4 & M5). fold (cells g s') in M1, M2, M3, M4, M5.
  pose proof (op_sec _ _ _ _ _ _ O) as S. pose proof (op_v _ _ _ _ _ _ O) as V. pose proof (op_cmd _ _ _ _ _ _ O) as C.
  rewrite <- S, map_map in C. rewrite <- S in M1. rewrite <- V in M2.
  apply nth_error_ext. intros i. rewrite !nth_error_map.
  apply (f_equal (fun l => nth_error l i)) in M1. apply (f_equal (fun l => nth_error l i)) in M2. apply (f_equal (fun l => nth_error l i)) in C.
  rewrite !nth_error_map in M1, M2, C.
  destruct (nth_error (cells g s') i) as [x|] eqn:Ei, (nth_error loads i) as [y|]; cbn [option_map] in *; try discriminate; auto.
  injection M1 as M1. injection M2 as M2. injection C as C.
  destruct (cell_eff _ _ _ _ _ Hz Hc Ei) as [D1 D2].
  f_equal. rewrite b_entry_spec. unfold lift_alone, eff_flap, effective_deflection. rnum.
  rewrite C, <- M1, <- M2, (Rmult_assoc (s_flap_eff (c_sec x))), D2. reflexivity.
Qed.
Lemma row_times_zeros row : forall n, row_times row (repeat 0 n) = 0.
Proof.
  unfold row_times. induction row as [|a row IH]; intros [|n]; cbn [map2 repeat]; rewrite ?nsum_nil; auto.
  rewrite nsum_cons, IH. rnum. ring.
Qed.
Lemma all_zero_repeat (l : list R) : Forall (fun x => x = 0) l -> l = repeat 0 (List.length l).
Proof. induction 1; cbn; congruence. Qed.
Lemma Forall_map_iff {A B} (P : B -> Prop) (f : A -> B) l : Forall P (map f l) <-> Forall (fun x => P (f x)) l.
Proof. rewrite !Forall_forall. split; intros H x Hx; [apply H; now apply in_map|apply in_map_iff in Hx as (y & <- & Hy); auto]. Qed.

Lemma no_load ls g h k r s' : exact_solver ls -> g_num g = List.length (g_sections g) ->
  call_solve ls g k (after ls g h) = (Ok r, s') -> vdot (l_uinf s') (l_uinf s') = 1 ->
  exists gam loads res, l_gamma s' = Some gam /\ l_results s' = Some res /\
    in_operation g (l_uinf s') (l_v s') (l_rho s') (acting g h k) gam loads /\
    (Forall (fun x => lift_alone x = 0) loads <-> Forall (fun x => x = 0) gam) /\
    (Forall (fun x => lift_alone x = 0) loads ->
       Forall (fun comp : fm R -> R => comp (r_inviscid res) = 0) force_readings /\
       Forall (fun x => ld_vel x = ld_v x) loads).
Proof.
  intros He Hn H Hu. pose proof (acting_controls _ _ _ _ _ _ Hn H) as Hc.
  pose proof (ll_solve_sized ls g Hn (k_cg k) (k_stype k) (k_aero k) (k_ctl k) _ (after_sized ls g Hn h)) as Hz.
  pose proof H as H0. unfold call_solve in H0. rewrite H0 in Hz. cbn [snd] in Hz. clear H0.
  destruct (call_operating _ _ _ _ _ _ He Hn H) as (loads & O).
  pose proof (op_solved _ _ _ _ _ _ O) as Sv.
  pose proof (rhs_alone _ _ _ _ _ _ Hz Hc O) as Eb.
  destruct (exact_answer _ _ _ _ He (sv_gamma Sv)) as [_ Uni]. rewrite Eb in Uni.
  assert (Lc : List.length (cells g s') = List.length loads).
  { apply (f_equal (@List.length R)) in Eb. now rewrite !map_length in Eb. }
  destruct (a_matrix_square (l_uinf s') (cells g s')) as [_ LA].
  exists (map ld_gamma loads), loads. eexists. split; [apply (op_gamma _ _ _ _ _ _ O)|]. split; [apply (sv_results Sv)|].
  split; [eapply operating_in_operation; eauto|].
  assert (Zw : Forall (fun x => ld_gamma x = 0) loads -> forall x, In x loads -> ld_w x = vzero).
  { intros Hg x Hx. apply In_nth_error in Hx. destruct Hx as [i Hi]. rewrite (op_w _ _ _ _ _ _ O i x Hi).
    unfold mapi. generalize 0%nat. clear -Hg. induction Hg as [|y l Hy Hl IH]; intros j; cbn [mapi_from]; [apply vsum_nil|].
    rewrite vsum_cons, IH, Hy. vring. }
  assert (Fwd : Forall (fun x => lift_alone x = 0) loads -> Forall (fun x => ld_gamma x = 0) loads).
  { intros Hl. apply (Forall_map_iff (fun y => y = 0) ld_gamma).
    rewrite <- (Uni (repeat 0 (List.length loads))).
    - apply Forall_forall. intros y Hy. now apply repeat_spec in Hy.
    - split; [rewrite repeat_length; congruence|].
      apply (Forall_map_iff (fun y => y = 0) lift_alone) in Hl. rewrite (all_zero_repeat _ Hl), map_length, <- Lc, <- LA.
      generalize (List.length (a_matrix (l_uinf s') (cells g s'))) at 1. intros n. clear.
      induction (a_matrix _ _) as [|row A IH]; cbn [map repeat List.length]; auto. rewrite row_times_zeros, IH. reflexivity. }
  split; [split|].
  - intros Hl. apply Forall_map_iff. auto.
  - intros Hg. apply Forall_map_iff in Hg. pose proof (op_eq _ _ _ _ _ _ O) as Q. rewrite Forall_forall in Q, Hg |- *.
    intros x Hx. specialize (Q x Hx). unfold lifting_line_equation in Q. cbv zeta in Q.
    rewrite (Hg x Hx), (Zw ltac:(now apply Forall_forall) x Hx) in Q. unfold lift_alone, effective_deflection.
    rewrite <- Rmult_assoc. replace (vdot (s_un (ld_sec x)) vzero) with 0 in Q by vring. lra.
  - intros Hl. specialize (Fwd Hl). split.
    + unfold assemble. cbn [r_inviscid]. rewrite (op_sols _ _ _ _ _ _ O), map_map. cbn [sol_of so_force].
      assert (Ef : vsum (map (fun x => vortex_force x) loads) = vzero).
      { clear -Fwd. induction Fwd as [|x l Hx Hl IH]; cbn [map]; [apply vsum_nil|]. rewrite vsum_cons, IH. unfold vortex_force. rewrite Hx.
        generalize (vcross (ld_vel x) (ld_dl x)). intros q. vring. }
      rewrite Ef.
      replace (vzero : vec3 R) with (q3 vzero vzero vzero 0) by (unfold q3; vring).
      apply Forall_forall. intros comp Hcomp. rewrite reading_quadratic by auto.
      assert (Ez : comp (make_fm (l_uinf s') vzero vzero) = 0).
      { pose proof (reading_quadratic (l_uinf s') vzero vzero vzero vzero comp Hcomp 1) as E1.
        replace (q3 vzero vzero vzero 1) with (vzero : vec3 R) in E1 by (unfold q3; vring). lra. }
      rewrite Ez. ring.
    + apply Forall_forall. intros x Hx. unfold ld_vel. rewrite (Zw Fwd x Hx). vring.
Qed.
