(** Mirrored flight of an airplane that is its own mirror image (C76). *)
From Coq Require Import Reals ZArith String Bool Arith Lia Lra List Permutation.
From Verif Require Import Base Num RVec Geometry Api Grid LLModel Spec_Grid Spec_Geom Spec_LL LL_state LL_R LL_solve
  Grid_facts Grid_thm Mirror LL_props LL_thm LL_thm2 LL_sym Spec_Mirror.
Import ListNotations.
Local Open Scope string_scope.
Local Open Scope R_scope.

(** *** Sections of fins *)
Record fin_section (s : section R) : Prop := {
  fs_r : mirror (s_r s) = s_r s; fs_r1 : mirror (s_r1 s) = s_r1 s; fs_r2 : mirror (s_r2 s) = s_r2 s;
  fs_un : mirror (s_un s) = vopp (s_un s); fs_ua : mirror (s_ua s) = s_ua s; fs_us : mirror (s_us s) = s_us s;
  fs_al0 : tl (s_al0 s) = 0 /\ tr (s_al0 s) = 0; fs_cml0 : tl (s_cml0 s) = 0 /\ tr (s_cml0 s) = 0;
  fs_cma : tl (s_cma s) = 0 /\ tr (s_cma s) = 0; fs_cd1 : tl (s_cd1 s) = 0 /\ tr (s_cd1 s) = 0;
  fs_mix : s_mix_e s = 0 /\ s_mix_f s = 0
}.
Record cell_fin (c c' : cell R) : Prop := {
  cf_sec : c_sec c = c_sec c'; cf_fin : fin_section (c_sec c');
  cf_v : c_v c = mirror (c_v c'); cf_rho : c_rho c = c_rho c';
  cf_delta : c_delta c = - c_delta c'; cf_eff : c_eff c * c_delta c = - (c_eff c' * c_delta c')
}.
Inductive cell_pair : R -> cell R -> cell R -> Prop :=
| pair_plus c c' : cell_mirrored c c' -> cell_pair 1 c c'
| pair_fin c c' : cell_fin c c' -> cell_pair (-1) c c'.

Lemma vopp_mirror v : vopp (mirror (vopp (mirror v))) = v.
Proof. unfold mirror. vring. Qed.
Lemma opp_eq (a b : R) : a = - b -> b = - a.
Proof. intros ->. ring. Qed.
Lemma cell_mirrored_sym c c' : cell_mirrored c c' -> cell_mirrored c' c.
Proof.
  intros [A B C D E]. constructor; auto using mirrored_sym. now rewrite B, mirror_mirror.
Qed.
Lemma cell_fin_sym c c' : cell_fin c c' -> cell_fin c' c.
Proof.
  intros [A F B C D E]. constructor; auto using opp_eq; try congruence. now rewrite B, mirror_mirror.
Qed.
Lemma cell_pair_sym e c c' : cell_pair e c c' -> cell_pair e c' c.
Proof. intros [a b H|a b H]; constructor; auto using cell_mirrored_sym, cell_fin_sym. Qed.
Lemma pair_sign e c c' : cell_pair e c c' -> e * e = 1.
Proof. intros []; ring. Qed.
Lemma pair_v e c c' : cell_pair e c c' -> c_v c = mirror (c_v c').
Proof. intros [? ? H|? ? H]; apply H. Qed.
Lemma pair_r e c c' : cell_pair e c c' -> s_r (c_sec c) = mirror (s_r (c_sec c')).
Proof.
  intros [a b H|a b H]; [apply (mi_r _ _ (cm_sec _ _ H))|]. rewrite (cf_sec _ _ H). symmetry. apply (fs_r _ (cf_fin _ _ H)).
Qed.
Lemma pair_un e c c' : cell_pair e c c' -> s_un (c_sec c) = vscale e (mirror (s_un (c_sec c'))).
Proof.
  intros [a b H|a b H].
  - rewrite (mi_un _ _ (cm_sec _ _ H)). unfold mirror. vring.
  - rewrite (cf_sec _ _ H), (fs_un _ (cf_fin _ _ H)). vring.
Qed.

(** *** Induced velocities *)
Lemma trail_mirrored u r : trail_term (mirror u) (mirror r) = vopp (mirror (trail_term (T := R) u r)).
Proof.
  unfold trail_term. rewrite mirror_norm, mirror_dot, mirror_cross.
  rewrite !vdivs_scale, mirror_scale. unfold mirror. vring.
Qed.
Lemma bound_fin same r1 r2 : bound_term same (mirror r1) (mirror r2) = vopp (mirror (bound_term (T := R) same r1 r2)).
Proof.
  unfold bound_term. destruct same; [unfold mirror; vring|]. rewrite !mirror_norm, mirror_dot, mirror_cross.
  rewrite !vdivs_scale, !mirror_scale. unfold mirror. vring.
Qed.
Lemma induced_pair u same ei ej ci cj ci' cj' : cell_pair ei ci ci' -> cell_pair ej cj cj' ->
  induced (mirror u) same (c_sec ci) (c_sec cj) = vscale ej (mirror (induced u same (c_sec ci') (c_sec cj'))).
Proof.
  intros Hi Hj. unfold induced. rewrite (pair_r _ _ _ Hi).
  destruct Hj as [cj cj' Hj|cj cj' Hj].
  - pose proof (cm_sec _ _ Hj) as Sj. rewrite (mi_r1 _ _ Sj), (mi_r2 _ _ Sj), <- !mirror_sub.
    rewrite bound_mirror, !trail_mirrored, mirror_scale.
    generalize (trail_term u (vsub (s_r (c_sec ci')) (s_r1 (c_sec cj')))) (trail_term u (vsub (s_r (c_sec ci')) (s_r2 (c_sec cj'))))
      (bound_term same (vsub (s_r (c_sec ci')) (s_r1 (c_sec cj'))) (vsub (s_r (c_sec ci')) (s_r2 (c_sec cj')))) (ndiv n1 (nmul (nint 4) npi) : R).
    intros. unfold mirror. vring.
  - pose proof (cf_fin _ _ Hj) as F. rewrite (cf_sec _ _ Hj).
    rewrite <- (fs_r1 _ F) at 1 2. rewrite <- (fs_r2 _ F) at 1 2. rewrite <- !mirror_sub.
    rewrite bound_fin, !trail_mirrored, mirror_scale.
    generalize (trail_term u (vsub (s_r (c_sec ci')) (s_r1 (c_sec cj')))) (trail_term u (vsub (s_r (c_sec ci')) (s_r2 (c_sec cj'))))
      (bound_term same (vsub (s_r (c_sec ci')) (s_r1 (c_sec cj'))) (vsub (s_r (c_sec ci')) (s_r2 (c_sec cj')))) (ndiv n1 (nmul (nint 4) npi) : R).
    intros. unfold mirror. vring.
Qed.
Lemma vdot_scale_mirror a b x y : vdot (vscale a (mirror x)) (vscale b (mirror y)) = a * b * vdot x y.
Proof. unfold mirror. vring. Qed.
Lemma a_entry_pair u same ei ej ci cj ci' cj' : cell_pair ei ci ci' -> cell_pair ej cj cj' -> (same = true -> ej = ei) ->
  a_entry (mirror u) same ci cj = ei * ej * a_entry u same ci' cj'.
Proof.
  intros Hi Hj Hsame. unfold a_entry. rewrite (induced_pair _ _ _ _ _ _ _ _ Hi Hj), (pair_un _ _ _ Hi), vdot_scale_mirror.
  rewrite (pair_v _ _ _ Hi), mirror_norm.
  assert (Es : s_dS (c_sec ci) = s_dS (c_sec ci') /\ tm (s_cla (c_sec ci)) = tm (s_cla (c_sec ci')) /\
    vnorm (vcross (mirror (c_v ci')) (vsub (s_r2 (c_sec ci)) (s_r1 (c_sec ci))))
              = vnorm (vcross (c_v ci') (vsub (s_r2 (c_sec ci')) (s_r1 (c_sec ci'))))).
  { clear Hsame. destruct Hi as [ci ci' H|ci ci' H].
    - pose proof (cm_sec _ _ H) as S. refine (conj (mi_dS _ _ S) (conj (proj1 (mi_cla _ _ S)) _)).
      rewrite (mi_r1 _ _ S), (mi_r2 _ _ S), <- mirror_sub, mirror_cross.
      unfold vnorm. f_equal. unfold mirror. vring.
    - pose proof (cf_fin _ _ H) as F. rewrite (cf_sec _ _ H). refine (conj eq_refl (conj eq_refl _)).
      rewrite <- (fs_r1 _ F) at 1. rewrite <- (fs_r2 _ F) at 1. rewrite <- mirror_sub, mirror_cross.
      unfold vnorm. f_equal. unfold mirror. vring. }
  destruct Es as (-> & -> & ->). pose proof (pair_sign _ _ _ Hi) as E1. rnum.
  generalize (vnorm (vcross (c_v ci') (vsub (s_r2 (c_sec ci')) (s_r1 (c_sec ci'))))).
  generalize (vdot (s_un (c_sec ci')) (induced u same (c_sec ci') (c_sec cj'))). intros x y.
  destruct same; [rewrite (Hsame eq_refl), E1|]; ring.
Qed.
Lemma vdot_mirror_l a b : vdot (mirror a) b = vdot (T := R) a (mirror b).
Proof. unfold mirror. vring. Qed.
Lemma vdot_opp_r a b : vdot a (vopp b) = - vdot (T := R) a b.
Proof. vring. Qed.
Lemma b_entry_pair e c c' : cell_pair e c c' -> b_entry c = e * b_entry c'.
Proof.
  intros [a b H|a b H].
  - pose proof (cm_sec _ _ H) as S. rewrite Rmult_1_l. now apply b_entry_mirror.
  - pose proof (cf_fin _ _ H) as F. unfold b_entry, eff_flap. cbv zeta.
    rewrite (cf_v _ _ H), mirror_norm, (cf_sec _ _ H), !vdot_mirror_l, (fs_un _ F), (fs_ua _ F), vdot_opp_r.
    destruct (fs_al0 _ F) as [-> ->]. rnum.
    replace (- vdot (c_v b) (s_un (c_sec b)) / vdot (c_v b) (s_ua (c_sec b)))
      with (- (vdot (c_v b) (s_un (c_sec b)) / vdot (c_v b) (s_ua (c_sec b)))) by (unfold Rdiv; ring).
    rewrite atan_opp, !Rmult_assoc, (cf_eff _ _ H). ring.
Qed.
Lemma atan2_square y x : Ratan2 (- y) x * Ratan2 (- y) x = Ratan2 y x * Ratan2 y x.
Proof.
  unfold Ratan2. replace (- y / x) with (- (y / x)) by (unfold Rdiv; ring). rewrite atan_opp.
  repeat match goal with |- context [Rlt_dec ?a ?b] => destruct (Rlt_dec a b) end; try ring; try lra;
  repeat match goal with |- context [Rle_dec ?a ?b] => destruct (Rle_dec a b) end; try ring; try lra.
  assert (y = 0) by lra. subst y. replace (0 / x) with 0 by (unfold Rdiv; ring). rewrite atan_0. ring.
Qed.

Lemma solve_cell_pair e cg y vi c c' : cell_pair e c c' ->
  let x := solve_cell (mirror cg) (e * y) (mirror vi) c in
  let x' := solve_cell cg y vi c' in
  so_force x = mirror (so_force x') /\ so_par x = mirror (so_par x') /\
  so_moment x = vopp (mirror (so_moment x')) /\ so_moment_par x = vopp (mirror (so_moment_par x')).
Proof.
  intros [a b H|a b H].
  - pose proof (cm_sec _ _ H) as S. rewrite Rmult_1_l. cbv zeta. unfold solve_cell. cbv zeta.
    cbn [so_force so_par so_moment so_moment_par].
    rewrite (mi_un _ _ S), (mi_ua _ _ S), !mirror_dot.
    set (al := natan2 _ _).
    assert (Ecl : section_cl (c_sec a) al = section_cl (c_sec b) al).
    { unfold section_cl. rewrite (mi_sp _ _ S).
      destruct (mi_cla _ _ S) as (_ & -> & ->), (mi_al0 _ _ S) as (_ & -> & ->). rnum. ring. }
    rewrite Ecl. set (cl := section_cl _ al).
    assert (Ecd : section_cd (c_sec a) cl (c_delta a) = section_cd (c_sec b) cl (c_delta b)).
    { unfold section_cd. rewrite (mi_sp _ _ S), (cm_delta _ _ H).
      destruct (mi_cd0 _ _ S) as (_ & -> & ->), (mi_cd1 _ _ S) as (_ & -> & ->), (mi_cd2 _ _ S) as (_ & -> & ->). rnum. ring. }
    rewrite Ecd. set (cd := section_cd _ _ _).
    assert (Ecm : section_cm (c_sec a) al (c_delta a) = section_cm (c_sec b) al (c_delta b)).
    { unfold section_cm. rewrite (mi_sp _ _ S), (cm_delta _ _ H), (mi_cmd _ _ S).
      destruct (mi_cml0 _ _ S) as (_ & -> & ->), (mi_cma _ _ S) as (_ & -> & ->), (mi_al0 _ _ S) as (_ & -> & ->). rnum. ring. }
    rewrite Ecm. set (cm := section_cm _ _ _).
    rewrite (cm_v _ _ H), !mirror_norm, (cm_rho _ _ H), (mi_dS _ _ S), (mi_ic2 _ _ S), (mi_us _ _ S).
    rewrite (mi_r _ _ S), (mi_r1 _ _ S), (mi_r2 _ _ S), <- !mirror_sub.
    set (f := vscale (nmul (c_rho b) y) (vcross vi (vsub (s_r2 (c_sec b)) (s_r1 (c_sec b))))).
    assert (Ef : vscale (nmul (c_rho b) y) (vcross (mirror vi) (mirror (vsub (s_r1 (c_sec b)) (s_r2 (c_sec b))))) = mirror f).
    { unfold f. rewrite mirror_cross, mirror_scale. f_equal. unfold mirror. vring. }
    rewrite Ef. rewrite <- mirror_scale, !vdivs_scale, <- mirror_scale.
    set (p := vscale (/ vnorm vi) _).
    rewrite !mirror_cross. refine (conj eq_refl (conj eq_refl (conj _ eq_refl))).
    generalize (vcross (vsub (s_r (c_sec b)) cg) f). intros q. unfold mirror. vring.
  - pose proof (cf_fin _ _ H) as F. cbv zeta. unfold solve_cell. cbv zeta.
    cbn [so_force so_par so_moment so_moment_par]. rewrite (cf_sec _ _ H).
    rewrite !vdot_mirror_l, (fs_un _ F), (fs_ua _ F), vdot_opp_r.
    set (al := natan2 _ _). set (al' := natan2 (vdot vi (s_un (c_sec b))) _).
    assert (Eal : al * al = al' * al') by (unfold al, al'; rnum; apply atan2_square). clearbody al al'.
    assert (Ecd : section_cd (c_sec b) (section_cl (c_sec b) al) (c_delta a) = section_cd (c_sec b) (section_cl (c_sec b) al') (c_delta b)).
    { unfold section_cd, section_cl. destruct (fs_cd1 _ F) as [-> ->]. destruct (fs_al0 _ F) as [-> ->].
      rewrite (cf_delta _ _ H). rnum. rewrite Rabs_Ropp. rewrite !Rminus_0_r.
      set (L := tl (s_cla _)). set (R' := tr (s_cla _)). set (sp := s_sp _).
      assert (E : forall z, (L * z + sp * (R' * z - L * z)) * (L * z + sp * (R' * z - L * z)) = (L + sp * (R' - L)) * (L + sp * (R' - L)) * (z * z))
        by (intros; ring).
      rewrite !Rmult_0_l, !(Rmult_assoc (tl (s_cd2 _))), !(Rmult_assoc (tr (s_cd2 _))), !E, Eal. ring. }
    rewrite Ecd. set (cd := section_cd _ _ _).
    assert (Ecm : section_cm (c_sec b) al (c_delta a) = - section_cm (c_sec b) al' (c_delta b)).
    { unfold section_cm. rewrite (cf_delta _ _ H).
      destruct (fs_cml0 _ F) as [-> ->]. destruct (fs_cma _ F) as [-> ->]. rnum. ring. }
    rewrite Ecm. set (cm := section_cm _ _ _).
    rewrite (cf_v _ _ H), !mirror_norm, (cf_rho _ _ H).
    set (f := vscale (nmul (c_rho b) y) (vcross vi (vsub (s_r2 (c_sec b)) (s_r1 (c_sec b))))).
    assert (Ef : vscale (nmul (c_rho b) (-1 * y)) (vcross (mirror vi) (vsub (s_r2 (c_sec b)) (s_r1 (c_sec b)))) = mirror f).
    { unfold f. rewrite <- (fs_r1 _ F) at 1. rewrite <- (fs_r2 _ F) at 1. rewrite <- mirror_sub, mirror_cross.
      generalize (vcross vi (vsub (s_r2 (c_sec b)) (s_r1 (c_sec b)))). intros. unfold mirror. vring. }
    rewrite Ef. rewrite <- mirror_scale, !vdivs_scale, <- mirror_scale.
    set (p := vscale (/ vnorm vi) _).
    assert (Ea : vsub (s_r (c_sec b)) (mirror cg) = mirror (vsub (s_r (c_sec b)) cg)) by now rewrite mirror_sub, (fs_r _ F).
    rewrite Ea, !mirror_cross.
    refine (conj eq_refl (conj eq_refl (conj _ eq_refl))).
    rewrite <- (fs_us _ F) at 1. generalize (vcross (vsub (s_r (c_sec b)) cg) f). intros q. unfold mirror. vring.
Qed.

(** *** Two lists of cells *)
Section Pair.
  Variables (u cg : vec3 R) (cs cs' : list (cell R)) (sg : nat -> nat) (e : nat -> R) (d : cell R).
  Let n := List.length cs.
  Let C := index_of d cs.
  Let C' := index_of d cs'.
  Hypothesis Hlen : List.length cs' = n.
  Hypothesis Hsw : swaps n sg.
  Hypothesis He : forall i, (i < n)%nat -> e (sg i) = e i.
  Hypothesis Hm : forall i, (i < n)%nat -> cell_pair (e i) (C' (sg i)) (C i).

  Lemma row_idx v (X : list (cell R)) i ci (Y : nat -> R) : List.length X = n ->
    row_times (mapi (fun j cj => a_entry v (Nat.eqb i j) ci cj) X) (map Y (seq 0 n))
    = nsum (map (fun j => a_entry v (Nat.eqb i j) ci (index_of d X j) * Y j) (seq 0 n)).
  Proof. intros E. unfold row_times. rewrite (mapi_index d), E. rewrite map2_map_same. reflexivity. Qed.

  Definition carried (gam : list R) : list R := map (fun j => e j * index_of 0 gam (sg j)) (seq 0 n).
  Lemma carried_length gam : List.length (carried gam) = n.
  Proof. unfold carried. now rewrite map_length, seq_length. Qed.
  Lemma carried_at gam j : (j < n)%nat -> index_of 0 (carried gam) j = e j * index_of 0 gam (sg j).
  Proof.
    intros H. unfold index_of at 1. apply nth_error_nth. unfold carried. rewrite nth_error_seq_map.
    apply Nat.ltb_lt in H. now rewrite H.
  Qed.
  Lemma carried_image gam j : (j < n)%nat -> index_of 0 (carried gam) (sg j) = e j * index_of 0 gam j.
  Proof.
    intros H. rewrite carried_at by now apply (sw_lt _ _ Hsw). now rewrite He, (sw_inv _ _ Hsw).
  Qed.
  Lemma carried_carried gam : List.length gam = n -> carried (carried gam) = gam.
  Proof.
    intros L. rewrite (list_index 0 gam) at 2. rewrite L. unfold carried at 1. apply map_seq_ext. intros i Hi.
    rewrite carried_image by auto. pose proof (pair_sign _ _ _ (Hm i Hi)) as E. rewrite <- Rmult_assoc, E. ring.
  Qed.

  Lemma carried_solves gam : solves (a_matrix u cs) (map b_entry cs) gam ->
    solves (a_matrix (mirror u) cs') (map b_entry cs') (carried gam).
  Proof.
    intros Hsol. destruct (solves_rows _ _ _ Hsol) as [Lg Hr]. fold n in Lg.
    apply rows_solve; [now rewrite carried_length|]. intros k ck Hk.
    assert (Hkn : (k < n)%nat) by (rewrite <- Hlen; apply nth_error_Some; congruence).
    set (i := sg k). assert (Hi : (i < n)%nat) by now apply (sw_lt _ _ Hsw).
    assert (Ek : k = sg i) by (unfold i; symmetry; now apply (sw_inv _ _ Hsw)).
    assert (Eck : ck = C' k) by (unfold C', index_of; symmetry; now apply nth_error_nth).
    subst ck. clearbody i. subst k. clear Hk Hkn.
    unfold carried. rewrite row_idx by auto. fold C'.
    rewrite (nsum_swaps n sg _ Hsw).
    rewrite (b_entry_pair _ _ _ (Hm i Hi)).
    assert (Hci : nth_error cs i = Some (C i)) by (unfold C, index_of; now apply nth_error_nth').
    assert (Eg : gam = map (index_of 0 gam) (seq 0 n)) by (rewrite <- Lg; apply list_index).
    assert (Hr' : row_times (mapi (fun j cj => a_entry u (Nat.eqb i j) (C i) cj) cs) (map (index_of 0 gam) (seq 0 n)) = b_entry (C i))
      by (rewrite <- Eg; now apply Hr).
    rewrite <- Hr', row_idx by auto. fold C.
    assert (Ns : forall k l, nsum (map (fun j : nat => k * l j) (seq 0 n)) = k * nsum (T := R) (map l (seq 0 n))).
    { clear. intros k l. induction (seq 0 n) as [|x q IH]; [unfold nsum; cbn; rnum; ring|]. cbn [map]. rewrite !nsum_cons, IH. rnum. ring. }
    rewrite <- Ns. f_equal. apply map_seq_ext. intros j Hj.
    rewrite He, (sw_inv _ _ Hsw), (swaps_eqb n sg i j Hsw Hi Hj) by auto.
    rewrite (a_entry_pair u (Nat.eqb i j) (e i) (e j) _ _ _ _ (Hm i Hi) (Hm j Hj)).
    - pose proof (pair_sign _ _ _ (Hm j Hj)) as E. 
      replace (e i * e j * a_entry u (i =? j)%nat (C i) (C j) * (e j * index_of 0 gam j))
        with (e j * e j * (e i * (a_entry u (i =? j)%nat (C i) (C j) * index_of 0 gam j))) by ring.
      rewrite E. ring.
    - intros Eb. apply Nat.eqb_eq in Eb. now subst.
  Qed.

  Section Solved.
    Variable gam : list R.
    Hypothesis Lg : List.length gam = n.
    Let X := index_of 0 gam.
    Let X' := index_of 0 (carried gam).
    Lemma wash_idx v (K : list (cell R)) (g : list R) i ci : List.length K = n -> List.length g = n ->
      wash v K g i ci
      = vsum (map (fun j => vscale (index_of 0 g j) (induced v (Nat.eqb i j) (c_sec ci) (c_sec (index_of d K j)))) (seq 0 n)).
    Proof.
      intros L1 L2. unfold wash. rewrite (list_index 0 g) at 1. rewrite L2, (mapi_index d), L1. rewrite map2_map_same. reflexivity.
    Qed.
    Lemma total_pair i : (i < n)%nat ->
      total_velocity (mirror u) cs' (carried gam) (sg i) (C' (sg i)) = mirror (total_velocity u cs gam i (C i)).
    Proof.
      intros Hi. rewrite !total_velocity_wash, mirror_add, (pair_v _ _ _ (Hm i Hi)). f_equal.
      rewrite !wash_idx by auto using carried_length. rewrite (vsum_swaps n sg _ Hsw), <- vsum_mirror. f_equal. apply map_seq_ext. intros j Hj.
      rewrite (carried_image gam j Hj), (swaps_eqb n sg i j Hsw Hi Hj), mirror_scale. fold C C'.
      rewrite (induced_pair u (Nat.eqb i j) _ _ _ _ _ _ (Hm i Hi) (Hm j Hj)).
      pose proof (pair_sign _ _ _ (Hm j Hj)) as E.
      generalize (mirror (induced u (i =? j)%nat (c_sec (C i)) (c_sec (C j)))). intros z. fold X.
      transitivity (vscale (e j * e j * X j) z); [vring|]. now rewrite E, Rmult_1_l.
    Qed.
    Let SOL i := solve_cell cg (X i) (total_velocity u cs gam i (C i)) (C i).
    Let SOL' i := solve_cell (mirror cg) (X' i) (total_velocity (mirror u) cs' (carried gam) i (C' i)) (C' i).
    Lemma sols_idx v c (K : list (cell R)) (g : list R) : List.length K = n -> List.length g = n ->
      solve_cells v c K g = map (fun i => solve_cell c (index_of 0 g i) (total_velocity v K g i (index_of d K i)) (index_of d K i)) (seq 0 n).
    Proof.
      intros L1 L2.
      apply nth_error_ext. intros i. unfold solve_cells. rewrite solve_cells_nth by congruence.
      rewrite nth_error_seq_map. destruct (Nat.ltb_spec i n) as [H|H].
      - assert (E0 : nth_error K i = Some (index_of d K i)) by (unfold index_of; apply nth_error_nth'; lia).
        assert (E : nth_error g i = Some (index_of 0 g i)) by (unfold index_of; apply nth_error_nth'; lia).
        rewrite E, E0. reflexivity.
      - assert (E : nth_error K i = None) by (apply nth_error_None; lia). rewrite E. reflexivity.
    Qed.
    Lemma sols_pair i : (i < n)%nat ->
      so_force (SOL' (sg i)) = mirror (so_force (SOL i)) /\ so_par (SOL' (sg i)) = mirror (so_par (SOL i)) /\
      so_moment (SOL' (sg i)) = vopp (mirror (so_moment (SOL i))) /\
      so_moment_par (SOL' (sg i)) = vopp (mirror (so_moment_par (SOL i))).
    Proof.
      intros Hi. unfold SOL, SOL', X'. rewrite (total_pair i Hi), (carried_image gam i Hi).
      apply solve_cell_pair. now apply Hm.
    Qed.
    Lemma even_pair (f : cell_sol R -> vec3 R) : (forall i, (i < n)%nat -> f (SOL' (sg i)) = mirror (f (SOL i))) ->
      vsum (map f (solve_cells (mirror u) (mirror cg) cs' (carried gam))) = mirror (vsum (map f (solve_cells u cg cs gam))).
    Proof.
      intros H. rewrite !sols_idx by auto using carried_length. rewrite !map_map.
      rewrite (vsum_swaps n sg _ Hsw), <- vsum_mirror. f_equal. now apply map_seq_ext.
    Qed.
    Lemma odd_pair (f : cell_sol R -> vec3 R) : (forall i, (i < n)%nat -> f (SOL' (sg i)) = vopp (mirror (f (SOL i)))) ->
      vsum (map f (solve_cells (mirror u) (mirror cg) cs' (carried gam))) = vopp (mirror (vsum (map f (solve_cells u cg cs gam)))).
    Proof.
      intros H. rewrite !sols_idx by auto using carried_length. rewrite !map_map.
      rewrite (vsum_swaps n sg _ Hsw), <- vsum_mirror.
      assert (O : forall g l, vopp (vsum (map g l)) = vsum (map (fun i : nat => vopp (g i : vec3 R)) l)).
      { intros g l. induction l; cbn [map]; rewrite ?vsum_nil, ?vsum_cons; [vring|]. rewrite <- IHl. vring. }
      rewrite O. f_equal. now apply map_seq_ext.
    Qed.
  End Solved.
End Pair.

Lemma make_pair u F M : mirrored_forces (make_fm u F M) (make_fm (mirror u) (mirror F) (vopp (mirror M))).
Proof.
  assert (EL : vcross (mirror u) vey = mirror (vcross u vey)) by (unfold mirror, vey; vring).
  assert (ES : forall a : vec3 R, vcross (mirror a) (mirror u) = vopp (mirror (vcross a u))) by (intros; apply mirror_cross).
  unfold make_fm, wind_axes. cbv zeta. rewrite EL, mirror_norm.
  set (L := vcross u vey).
  assert (E1 : vdivs (mirror L) (vnorm L) = mirror (vdivs L (vnorm L))) by (rewrite !vdivs_scale, mirror_scale; reflexivity).
  rewrite E1. set (l := vdivs L (vnorm L)). rewrite ES.
  set (S := vcross l u).
  assert (E2 : vdivs (vopp (mirror S)) (vnorm (vopp (mirror S))) = vopp (mirror (vdivs S (vnorm S)))).
  { assert (En : vnorm (vopp (mirror S)) = vnorm S) by (unfold vnorm; f_equal; unfold mirror; vring).
    rewrite En, !vdivs_scale, mirror_scale. vring. }
  rewrite E2. set (s := vdivs S (vnorm S)). rewrite !mirror_dot.
  clearbody l s.
  constructor; cbn [FL FD FS FX FY FZ MX MY MZ]; try reflexivity; try (unfold mirror, vopp; cbn [vx vy vz]; rnum; ring).
  rewrite <- !mirror_scale, <- !mirror_sub.
  generalize (vsub (vsub F (vscale (vdot F l) l)) (vscale (vdot F u) u)). intros z. unfold mirror. vring.
Qed.
Lemma add_pair a b a' b' : mirrored_forces a a' -> mirrored_forces b b' -> mirrored_forces (add_fm a b) (add_fm a' b').
Proof.
  intros [A1 A2 A3 A4 A5 A6 A7 A8 A9] [B1 B2 B3 B4 B5 B6 B7 B8 B9].
  constructor; unfold add_fm; cbn [FL FD FS FX FY FZ MX MY MZ]; rnum; rewrite ?A1, ?A2, ?A3, ?A4, ?A5, ?A6, ?A7, ?A8, ?A9, ?B1, ?B2, ?B3, ?B4, ?B5, ?B6, ?B7, ?B8, ?B9; ring.
Qed.

Lemma assemble_pair u cg cs cs' sg e d gam : List.length cs' = List.length cs -> swaps (List.length cs) sg ->
  (forall i, (i < List.length cs)%nat -> e (sg i) = e i) ->
  (forall i, (i < List.length cs)%nat -> cell_pair (e i) (index_of d cs' (sg i)) (index_of d cs i)) ->
  List.length gam = List.length cs ->
  mirrored_results (assemble u (solve_cells u cg cs gam))
    (assemble (mirror u) (solve_cells (mirror u) (mirror cg) cs' (carried cs sg e gam))).
Proof.
  intros H1 H2 H3 H4 H5.
  pose proof (sols_pair u cg cs cs' sg e d H1 H2 H3 H4 gam H5) as S.
  assert (E1 := even_pair u cg cs cs' sg e d H1 H2 gam H5 (@so_force R) (fun i H => proj1 (S i H))).
  assert (E2 := even_pair u cg cs cs' sg e d H1 H2 gam H5 (@so_par R) (fun i H => proj1 (proj2 (S i H)))).
  assert (E3 := odd_pair u cg cs cs' sg e d H1 H2 gam H5 (@so_moment R) (fun i H => proj1 (proj2 (proj2 (S i H))))).
  assert (E4 := odd_pair u cg cs cs' sg e d H1 H2 gam H5 (@so_moment_par R) (fun i H => proj2 (proj2 (proj2 (S i H))))).
  clear S. unfold assemble. rewrite E1, E2, E3, E4.
  assert (P1 := make_pair u (vsum (map (@so_force R) (solve_cells u cg cs gam))) (vsum (map (@so_moment R) (solve_cells u cg cs gam)))).
  assert (P2 := make_pair u (vsum (map (@so_par R) (solve_cells u cg cs gam))) (vsum (map (@so_moment_par R) (solve_cells u cg cs gam)))).
  pose proof (add_pair _ _ _ _ P1 P2) as P3.
  constructor; cbn [r_inviscid r_viscous r_total r_LoD]; auto.
  rewrite (mo_FL P3), (mo_FD P3). reflexivity.
Qed.
