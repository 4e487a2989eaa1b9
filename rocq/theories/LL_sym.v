(** Lateral symmetry (C29): a mirror-symmetric airplane in a symmetric flow. *)
From Coq Require Import Reals ZArith String Bool Arith Lia Lra List Permutation.
From Verif Require Import Base Num RVec Geometry Api Grid LLModel Spec_Grid Spec_Geom Spec_LL LL_state LL_R LL_solve
  Grid_facts Grid_thm Mirror LL_props LL_thm LL_thm2.
Import ListNotations.
Local Open Scope R_scope.

(** *** Index lists *)
Definition index_of {A} (d : A) (l : list A) (i : nat) : A := nth i l d.
Lemma list_index {A} (d : A) l : l = map (index_of d l) (seq 0 (List.length l)).
Proof.
  apply nth_error_ext. intros i. rewrite nth_error_seq_map. destruct (Nat.ltb_spec i (List.length l)).
  - simpl. unfold index_of. now apply nth_error_nth'.
  - apply nth_error_None. auto.
Qed.
Lemma mapi_index {A B} (d : A) (f : nat -> A -> B) l :
  mapi f l = map (fun i => f i (index_of d l i)) (seq 0 (List.length l)).
Proof.
  apply nth_error_ext. intros i. rewrite mapi_nth, nth_error_seq_map. destruct (Nat.ltb_spec i (List.length l)).
  - simpl. unfold index_of. rewrite (nth_error_nth' l d) by auto. reflexivity.
  - assert (E : nth_error l i = None) by now apply nth_error_None. now rewrite E.
Qed.

Record swaps (n : nat) (sg : nat -> nat) : Prop := {
  sw_lt : forall i, (i < n)%nat -> (sg i < n)%nat;
  sw_inv : forall i, (i < n)%nat -> sg (sg i) = i
}.
Lemma swaps_perm n sg : swaps n sg -> Permutation (map sg (seq 0 n)) (seq 0 n).
Proof.
  intros [H1 H2]. apply NoDup_Permutation.
  - assert (G : forall l, (forall i, In i l -> (i < n)%nat) -> NoDup l -> NoDup (map sg l)).
    { induction l as [|x l IH]; intros Hin Hnd; [constructor|]. inversion Hnd; subst. cbn [map]. constructor.
      - intros K. apply in_map_iff in K. destruct K as (y & E & Hy). apply (f_equal sg) in E.
        rewrite !H2 in E by (apply Hin; simpl; auto). subst. contradiction.
      - apply IH; auto. intros i Hi. apply Hin. simpl; auto. }
    apply G; [|apply seq_NoDup]. intros i Hi. apply in_seq in Hi. lia.
  - apply seq_NoDup.
  - intros x. rewrite in_map_iff. split.
    + intros (i & <- & Hi). apply in_seq in Hi. apply in_seq. pose proof (H1 i). lia.
    + intros Hx. apply in_seq in Hx. exists (sg x). split; [apply H2; lia|]. apply in_seq. pose proof (H1 x). lia.
Qed.
Lemma nsum_perm (l l' : list R) : Permutation l l' -> nsum l = nsum l'.
Proof. induction 1; rewrite ?nsum_cons in *; try lra. Qed.
Lemma vsum_perm (l l' : list (vec3 R)) : Permutation l l' -> vsum l = vsum l'.
Proof.
  induction 1; rewrite ?vsum_cons; auto; try congruence.
  rewrite !vadd_assoc. f_equal. apply vadd_comm.
Qed.
Lemma nsum_swaps n sg (f : nat -> R) : swaps n sg ->
  nsum (map f (seq 0 n)) = nsum (map (fun i => f (sg i)) (seq 0 n)).
Proof.
  intros H. rewrite <- (map_map sg f). apply nsum_perm. apply Permutation_map. symmetry. now apply swaps_perm.
Qed.
Lemma vsum_swaps n sg (f : nat -> vec3 R) : swaps n sg ->
  vsum (map f (seq 0 n)) = vsum (map (fun i => f (sg i)) (seq 0 n)).
Proof.
  intros H. rewrite <- (map_map sg f). apply vsum_perm. apply Permutation_map. symmetry. now apply swaps_perm.
Qed.
Lemma map_seq_ext {A} n (f f' : nat -> A) : (forall i, (i < n)%nat -> f i = f' i) ->
  map f (seq 0 n) = map f' (seq 0 n).
Proof. intros H. apply map_ext_in. intros i Hi. apply in_seq in Hi. apply H. lia. Qed.
Lemma swaps_eqb n sg i j : swaps n sg -> (i < n)%nat -> (j < n)%nat -> Nat.eqb (sg i) (sg j) = Nat.eqb i j.
Proof.
  intros H Hi Hj. destruct (Nat.eqb_spec i j) as [->|Hne]; [apply Nat.eqb_refl|].
  apply Nat.eqb_neq. intros E. apply Hne. rewrite <- (sw_inv _ _ H i), <- (sw_inv _ _ H j) by auto. congruence.
Qed.

(** *** Mirrored sections and cells *)
Definition opp_tri (a b : tri R) : Prop := tm a = tm b /\ tl a = tr b /\ tr a = tl b.
Record mirrored (s s' : section R) : Prop := {
  mi_sp : s_sp s = 1 - s_sp s';
  mi_r : s_r s = mirror (s_r s'); mi_r1 : s_r1 s = mirror (s_r2 s'); mi_r2 : s_r2 s = mirror (s_r1 s');
  mi_dS : s_dS s = s_dS s';
  mi_cla : opp_tri (s_cla s) (s_cla s'); mi_al0 : opp_tri (s_al0 s) (s_al0 s');
  mi_cma : opp_tri (s_cma s) (s_cma s'); mi_cml0 : opp_tri (s_cml0 s) (s_cml0 s');
  mi_cd0 : opp_tri (s_cd0 s) (s_cd0 s'); mi_cd1 : opp_tri (s_cd1 s) (s_cd1 s'); mi_cd2 : opp_tri (s_cd2 s) (s_cd2 s');
  mi_ua : s_ua s = mirror (s_ua s'); mi_un : s_un s = mirror (s_un s'); mi_us : s_us s = vopp (mirror (s_us s'));
  mi_fe : s_flap_eff s = s_flap_eff s';
  mi_e : s_mix_e s = s_mix_e s'; mi_f : s_mix_f s = s_mix_f s';
  mi_cmd : s_cmd s = s_cmd s'; mi_ic2 : s_ic2 s = s_ic2 s'
}.
Lemma mirrored_of nm s : mirrored (mirror_section nm s) s.
Proof. constructor; try reflexivity; repeat split. Qed.
Lemma opp_tri_sym a b : opp_tri a b -> opp_tri b a.
Proof. intros (A & B & C). repeat split; auto. Qed.
Lemma mirrored_sym s s' : mirrored s s' -> mirrored s' s.
Proof.
  intros H. destruct H. 
  constructor; try (apply opp_tri_sym; assumption); try (symmetry; assumption).
  - rewrite mi_sp0. ring.
  - rewrite mi_r0, mirror_mirror. reflexivity.
  - rewrite mi_r4, mirror_mirror. reflexivity.
  - rewrite mi_r3, mirror_mirror. reflexivity.
  - rewrite mi_ua0, mirror_mirror. reflexivity.
  - rewrite mi_un0, mirror_mirror. reflexivity.
  - rewrite mi_us0. unfold mirror. vring.
Qed.

Record cell_mirrored (c c' : cell R) : Prop := {
  cm_sec : mirrored (c_sec c) (c_sec c');
  cm_v : c_v c = mirror (c_v c');
  cm_rho : c_rho c = c_rho c';
  cm_delta : c_delta c = c_delta c';
  cm_eff : c_eff c * c_delta c = c_eff c' * c_delta c'
}.

Lemma trail_mirror u r : vy u = 0 -> trail_term u (mirror r) = vopp (mirror (trail_term (T := R) u r)).
Proof.
  intros Hu. unfold trail_term. rewrite mirror_norm.
  assert (E : vdot u (mirror r) = vdot u r) by (rewrite <- (mirror_fix u Hu) at 1; apply mirror_dot).
  assert (E2 : vcross u (mirror r) = vopp (mirror (vcross u r))) by (rewrite <- (mirror_fix u Hu) at 1; apply mirror_cross).
  rewrite E, E2. rewrite !vdivs_scale, mirror_scale. unfold mirror. vring.
Qed.
Lemma bound_mirror same r1 r2 : bound_term same (mirror r2) (mirror r1) = mirror (bound_term (T := R) same r1 r2).
Proof.
  unfold bound_term. destruct same; [unfold mirror; vring|]. rewrite !mirror_norm, mirror_dot, mirror_cross.
  rewrite !vdivs_scale, !mirror_scale, (vdot_comm r2 r1).
  rnum. rewrite (Rplus_comm (vnorm r2)), (Rmult_comm (vnorm r2)).
  unfold mirror. vring.
Qed.
Lemma induced_mirror u same si sj si' sj' : vy u = 0 -> mirrored si si' -> mirrored sj sj' ->
  induced u same si sj = mirror (induced u same si' sj').
Proof.
  intros Hu Hi Hj. unfold induced. rewrite (mi_r _ _ Hi), (mi_r1 _ _ Hj), (mi_r2 _ _ Hj), <- !mirror_sub.
  rewrite bound_mirror, !trail_mirror by auto. rewrite mirror_scale. f_equal.
  unfold mirror. vring.
Qed.
Lemma a_entry_mirror u same ci cj ci' cj' : vy u = 0 -> cell_mirrored ci ci' -> cell_mirrored cj cj' ->
  a_entry u same ci cj = a_entry u same ci' cj'.
Proof.
  intros Hu Hi Hj. pose proof (cm_sec _ _ Hi) as Si. pose proof (cm_sec _ _ Hj) as Sj.
  unfold a_entry. rewrite (induced_mirror u same _ _ _ _ Hu Si Sj).
  rewrite (cm_v _ _ Hi), mirror_norm, (mi_dS _ _ Si), (mi_un _ _ Si), mirror_dot.
  destruct (mi_cla _ _ Si) as (-> & _ & _).
  assert (E : vnorm (vcross (mirror (c_v ci')) (vsub (s_r2 (c_sec ci)) (s_r1 (c_sec ci))))
              = vnorm (vcross (c_v ci') (vsub (s_r2 (c_sec ci')) (s_r1 (c_sec ci'))))).
  { rewrite (mi_r1 _ _ Si), (mi_r2 _ _ Si), <- mirror_sub, mirror_cross.
    unfold vnorm. f_equal. unfold mirror. vring. }
  rewrite E. reflexivity.
Qed.
Lemma b_entry_mirror c c' : cell_mirrored c c' -> b_entry c = b_entry c'.
Proof.
  intros H. pose proof (cm_sec _ _ H) as S. unfold b_entry, eff_flap. cbv zeta.
  rewrite (cm_v _ _ H), mirror_norm, (mi_un _ _ S), (mi_ua _ _ S), !mirror_dot, (mi_dS _ _ S), (mi_sp _ _ S), (mi_fe _ _ S).
  destruct (mi_cla _ _ S) as (_ & -> & ->), (mi_al0 _ _ S) as (_ & -> & ->). rnum.
  rewrite !Rmult_assoc, (cm_eff _ _ H). ring.
Qed.
Lemma solve_cell_mirror cg y vi c c' : vy cg = 0 -> cell_mirrored c c' ->
  let x := solve_cell cg y (mirror vi) c in
  let x' := solve_cell cg y vi c' in
  so_force x = mirror (so_force x') /\ so_par x = mirror (so_par x') /\
  so_moment x = vopp (mirror (so_moment x')) /\ so_moment_par x = vopp (mirror (so_moment_par x')) /\
  so_cl x = so_cl x'.
Proof.
  intros Hcg H. pose proof (cm_sec _ _ H) as S. cbv zeta. unfold solve_cell. cbv zeta.
  cbn [so_force so_par so_moment so_moment_par so_cl].
  rewrite (mi_un _ _ S), (mi_ua _ _ S), !mirror_dot.
  set (al := natan2 _ _).
  assert (Ecl : section_cl (c_sec c) al = section_cl (c_sec c') al).
  { unfold section_cl. rewrite (mi_sp _ _ S).
    destruct (mi_cla _ _ S) as (_ & -> & ->), (mi_al0 _ _ S) as (_ & -> & ->). rnum. ring. }
  rewrite Ecl. set (cl := section_cl _ al).
  assert (Ecd : section_cd (c_sec c) cl (c_delta c) = section_cd (c_sec c') cl (c_delta c')).
  { unfold section_cd. rewrite (mi_sp _ _ S), (cm_delta _ _ H).
    destruct (mi_cd0 _ _ S) as (_ & -> & ->), (mi_cd1 _ _ S) as (_ & -> & ->), (mi_cd2 _ _ S) as (_ & -> & ->). rnum. ring. }
  rewrite Ecd. set (cd := section_cd _ _ _).
  assert (Ecm : section_cm (c_sec c) al (c_delta c) = section_cm (c_sec c') al (c_delta c')).
  { unfold section_cm. rewrite (mi_sp _ _ S), (cm_delta _ _ H), (mi_cmd _ _ S).
    destruct (mi_cml0 _ _ S) as (_ & -> & ->), (mi_cma _ _ S) as (_ & -> & ->), (mi_al0 _ _ S) as (_ & -> & ->). rnum. ring. }
  rewrite Ecm. set (cm := section_cm _ _ _).
  rewrite (cm_v _ _ H), !mirror_norm, (cm_rho _ _ H), (mi_dS _ _ S), (mi_ic2 _ _ S), (mi_us _ _ S).
  rewrite (mi_r _ _ S), (mi_r1 _ _ S), (mi_r2 _ _ S), <- mirror_sub.
  set (f := vscale (nmul (c_rho c') y) (vcross vi (vsub (s_r2 (c_sec c')) (s_r1 (c_sec c'))))).
  assert (Ef : vscale (nmul (c_rho c') y) (vcross (mirror vi) (mirror (vsub (s_r1 (c_sec c')) (s_r2 (c_sec c'))))) = mirror f).
  { unfold f. rewrite mirror_cross, mirror_scale. f_equal. unfold mirror. vring. }
  rewrite Ef. rewrite <- mirror_scale, !vdivs_scale, <- mirror_scale.
  set (p := vscale (/ vnorm vi) _).
  assert (Ea : vsub (mirror (s_r (c_sec c'))) cg = mirror (vsub (s_r (c_sec c')) cg)).
  { rewrite mirror_sub, (mirror_fix cg Hcg). reflexivity. }
  rewrite Ea, !mirror_cross. refine (conj eq_refl (conj eq_refl (conj _ (conj eq_refl eq_refl)))).
  generalize (vcross (vsub (s_r (c_sec c')) cg) f). intros q. unfold mirror. vring.
Qed.

Section Symmetric.
  Variables (u cg : vec3 R) (cs : list (cell R)) (gam : list R) (sg : nat -> nat).
  Hypothesis (Hu : vy u = 0) (Hcg : vy cg = 0).
  Hypothesis Hsw : swaps (List.length cs) sg.
  Hypothesis Hm : forall i c c', nth_error cs i = Some c -> nth_error cs (sg i) = Some c' -> cell_mirrored c' c.
  Hypothesis Hsol : solves (a_matrix u cs) (map b_entry cs) gam.
  Hypothesis Huni : forall y, solves (a_matrix u cs) (map b_entry cs) y -> y = gam.
  Variable d : cell R.
  Let n := List.length cs.
  Let C := index_of d cs.
  Let X := index_of 0 gam.

  Lemma gam_len : List.length gam = n.
  Proof. destruct (solves_rows _ _ _ Hsol) as [H _]. exact H. Qed.
  Lemma C_nth i : (i < n)%nat -> nth_error cs i = Some (C i).
  Proof. intros H. unfold C, index_of. now apply nth_error_nth'. Qed.
  Lemma C_mirror i : (i < n)%nat -> cell_mirrored (C (sg i)) (C i).
  Proof. intros H. apply Hm with i; apply C_nth; auto. now apply (sw_lt _ _ Hsw). Qed.
  Lemma row_index i ci (Y : nat -> R) :
    row_times (mapi (fun j cj => a_entry u (Nat.eqb i j) ci cj) cs) (map Y (seq 0 n))
    = nsum (map (fun j => a_entry u (Nat.eqb i j) ci (C j) * Y j) (seq 0 n)).
  Proof. unfold row_times. rewrite (mapi_index d). fold n. rewrite map2_map_same. reflexivity. Qed.

  Lemma gam_symmetric : forall j, (j < n)%nat -> X (sg j) = X j.
  Proof.
    assert (E : map (fun j => X (sg j)) (seq 0 n) = gam).
    { apply Huni. apply rows_solve; [now rewrite map_length, seq_length|]. intros i ci Hi.
      assert (Hin : (i < n)%nat) by (apply nth_error_Some; unfold n; congruence).
      assert (Eci : ci = C i) by (rewrite (C_nth i Hin) in Hi; congruence). subst ci.
      rewrite row_index. 
      destruct (solves_rows _ _ _ Hsol) as [_ Hr].
      specialize (Hr (sg i) (C (sg i)) (C_nth _ (sw_lt _ _ Hsw i Hin))).
      rewrite <- (b_entry_mirror _ _ (C_mirror i Hin)), <- Hr.
      rewrite (list_index 0 gam) at 1. rewrite gam_len. fold X. rewrite row_index.
      rewrite (nsum_swaps n sg (fun j => a_entry u (Nat.eqb (sg i) j) (C (sg i)) (C j) * X j) Hsw).
      f_equal. apply map_seq_ext. intros j Hj. f_equal.
      rewrite (swaps_eqb n sg i j Hsw Hin Hj). symmetry. apply a_entry_mirror; auto using C_mirror. }
    intros j Hj. apply (f_equal (fun l => nth_error l j)) in E. rewrite nth_error_seq_map in E.
    apply Nat.ltb_lt in Hj. rewrite Hj in E. apply Nat.ltb_lt in Hj. cbn [Nat.add] in E.
    unfold X at 2, index_of. symmetry. apply nth_error_nth. symmetry. exact E.
  Qed.

  Lemma wash_index i ci : wash u cs gam i ci
    = vsum (map (fun j => vscale (X j) (induced u (Nat.eqb i j) (c_sec ci) (c_sec (C j)))) (seq 0 n)).
  Proof.
    unfold wash. rewrite (list_index 0 gam) at 1. rewrite gam_len, (mapi_index d). fold n. rewrite map2_map_same. reflexivity.
  Qed.
  Lemma vsum_mirror (f : nat -> vec3 R) l : vsum (map (fun j => mirror (f j)) l) = mirror (vsum (map f l)).
  Proof.
    induction l as [|x l IH]; cbn [map]; rewrite ?vsum_nil, ?vsum_cons; [unfold mirror; vring|].
    rewrite IH, mirror_add. reflexivity.
  Qed.
  Lemma total_mirror i : (i < n)%nat ->
    total_velocity u cs gam (sg i) (C (sg i)) = mirror (total_velocity u cs gam i (C i)).
  Proof.
    intros Hi. rewrite !total_velocity_wash, mirror_add, (cm_v _ _ (C_mirror i Hi)). f_equal.
    rewrite !wash_index, (vsum_swaps n sg _ Hsw), <- vsum_mirror. f_equal. apply map_seq_ext. intros j Hj.
    rewrite (gam_symmetric j Hj), (swaps_eqb n sg i j Hsw Hi Hj), mirror_scale. f_equal.
    apply induced_mirror; auto; now apply cm_sec, C_mirror.
  Qed.
  Let SOL i := solve_cell cg (X i) (total_velocity u cs gam i (C i)) (C i).
  Lemma sols_index : solve_cells u cg cs gam = map SOL (seq 0 n).
  Proof.
    apply nth_error_ext. intros i. unfold solve_cells. rewrite solve_cells_nth by (symmetry; apply gam_len).
    rewrite nth_error_seq_map. destruct (Nat.ltb_spec i n) as [H|H].
    - rewrite (C_nth i H). assert (E : nth_error gam i = Some (X i)).
      { unfold X, index_of. apply nth_error_nth'. now rewrite gam_len. }
      rewrite E. reflexivity.
    - assert (E : nth_error cs i = None) by now apply nth_error_None. rewrite E. reflexivity.
  Qed.
  Lemma sols_mirror i : (i < n)%nat ->
    so_force (SOL (sg i)) = mirror (so_force (SOL i)) /\ so_par (SOL (sg i)) = mirror (so_par (SOL i)) /\
    so_moment (SOL (sg i)) = vopp (mirror (so_moment (SOL i))) /\
    so_moment_par (SOL (sg i)) = vopp (mirror (so_moment_par (SOL i))) /\
    so_cl (SOL (sg i)) = so_cl (SOL i).
  Proof.
    intros Hi. unfold SOL. rewrite (total_mirror i Hi), (gam_symmetric i Hi).
    apply solve_cell_mirror; auto using C_mirror.
  Qed.
  Lemma vector_even (f : cell_sol R -> vec3 R) : (forall i, (i < n)%nat -> f (SOL (sg i)) = mirror (f (SOL i))) ->
    vy (vsum (map f (solve_cells u cg cs gam))) = 0.
  Proof.
    intros H. rewrite sols_index, map_map.
    assert (E : vsum (map (fun i => f (SOL i)) (seq 0 n)) = mirror (vsum (map (fun i => f (SOL i)) (seq 0 n)))).
    { rewrite (vsum_swaps n sg _ Hsw) at 1. rewrite <- vsum_mirror. f_equal. now apply map_seq_ext. }
    apply (f_equal (@vy R)) in E. unfold mirror in E. cbn [vy] in E. lra.
  Qed.
  Lemma vector_odd (f : cell_sol R -> vec3 R) : (forall i, (i < n)%nat -> f (SOL (sg i)) = vopp (mirror (f (SOL i)))) ->
    let s := vsum (map f (solve_cells u cg cs gam)) in vx s = 0 /\ vz s = 0.
  Proof.
    intros H. cbv zeta. rewrite sols_index, map_map.
    assert (E : vsum (map (fun i => f (SOL i)) (seq 0 n)) = vopp (mirror (vsum (map (fun i => f (SOL i)) (seq 0 n))))).
    { rewrite (vsum_swaps n sg _ Hsw) at 1. rewrite <- vsum_mirror.
      assert (O : forall g l, vopp (vsum (map g l)) = vsum (map (fun i : nat => vopp (g i : vec3 R)) l)).
      { intros g l. induction l; cbn [map]; rewrite ?vsum_nil, ?vsum_cons; [vring|]. rewrite <- IHl. vring. }
      rewrite O. f_equal. now apply map_seq_ext. }
    split; [apply (f_equal (@vx R)) in E|apply (f_equal (@vz R)) in E]; unfold mirror, vopp in E; cbn [vx vy vz] in E; rnum; lra.
  Qed.

  Definition laterally_balanced (f : fm R) : Prop := FY f = 0 /\ FS f = 0 /\ MX f = 0 /\ MZ f = 0.
  Lemma make_balanced F M : vy F = 0 -> vx M = 0 -> vz M = 0 -> laterally_balanced (make_fm u F M).
  Proof.
    intros H1 H2 H3. unfold laterally_balanced, make_fm, wind_axes. cbn [FY FS MX MZ]. refine (conj H1 (conj _ (conj H2 H3))).
    destruct u as [ux uy uz], F as [fx fy fz]. cbn [vy] in *. subst uy fy.
    unfold vdot, vsub, vscale, vdivs, vcross, vey. cbn [vx vy vz]. rnum. unfold Rdiv. ring.
  Qed.
  Lemma assembled_balanced : forall f, In f (parts (assemble u (solve_cells u cg cs gam))) -> laterally_balanced f.
  Proof.
    pose proof (vector_even (@so_force R) (fun i H => proj1 (sols_mirror i H))) as E1.
    pose proof (vector_even (@so_par R) (fun i H => proj1 (proj2 (sols_mirror i H)))) as E2.
    destruct (vector_odd (@so_moment R) (fun i H => proj1 (proj2 (proj2 (sols_mirror i H))))) as [E3 E4].
    destruct (vector_odd (@so_moment_par R) (fun i H => proj1 (proj2 (proj2 (proj2 (sols_mirror i H)))))) as [E5 E6].
    assert (B1 := make_balanced _ _ E1 E3 E4). assert (B2 := make_balanced _ _ E2 E5 E6).
    intros f [<-|[<-|[<-|[]]]]; unfold assemble; cbn [r_inviscid r_viscous r_total]; auto.
    destruct B1 as (P1 & P2 & P3 & P4), B2 as (Q1 & Q2 & Q3 & Q4).
    unfold laterally_balanced, add_fm in *. cbn [FY FS MX MZ]. rnum. rewrite P1, P2, P3, P4, Q1, Q2, Q3, Q4.
    repeat split; ring.
  Qed.
End Symmetric.

(** *** The sections of a symmetric airplane *)
Lemma swap_swap t : swap_tri (swap_tri t) = t.
Proof. destruct t; reflexivity. Qed.
Lemma mirror_section_sym nm s s' : s = mirror_section nm s' -> s' = mirror_section (s_name s') s.
Proof.
  intros ->. unfold mirror_section. cbn [s_name s_sp s_sp1 s_sp2 s_r s_r1 s_r2 s_c s_c1 s_c2 s_dS s_cla s_al0 s_cma s_cml0 s_cd0 s_cd1 s_cd2
       s_clmax s_washout s_mount s_dihedral s_sweep s_ua s_un s_us s_flap_eff s_mix_a s_mix_e s_mix_r
       s_mix_f s_cmd s_ic2].
  assert (E1 : forall x : R, 1 - (1 - x) = x) by (intros; ring).
  assert (E2 : forall x : R, - - x = x) by (intros; ring).
  assert (E3 : forall v : vec3 R, vopp (mirror (vopp (mirror v))) = v) by (intros; unfold mirror; vring).
  rewrite !E1, !E2, E3, !mirror_mirror, !swap_swap. destruct s'; reflexivity.
Qed.
Definition paired (secs : list (section R)) (sg : nat -> nat) : Prop :=
  swaps (List.length secs) sg /\
  forall i s s', nth_error secs i = Some s -> nth_error secs (sg i) = Some s' -> s' = mirror_section (s_name s') s.
Lemma paired_nil : paired [] (fun i => i).
Proof. split; [constructor; auto|]. intros [|i] s s' H; discriminate. Qed.
Lemma paired_app (bl br rest : list (section R)) sg : List.length bl = List.length br ->
  (forall i s, nth_error bl i = Some s ->
     exists s', nth_error br (List.length br - 1 - i) = Some s' /\ s = mirror_section (s_name s) s') ->
  paired rest sg ->
  exists sg', paired (bl ++ br ++ rest) sg'.
Proof.
  intros Hl Hb [Hs Hr]. set (m := List.length br) in *.
  set (f := fun i => if (i <? 2 * m)%nat then (2 * m - 1 - i)%nat else (2 * m + sg (i - 2 * m))%nat).
  assert (F1 : forall i, (i < 2 * m)%nat -> f i = (2 * m - 1 - i)%nat).
  { intros i H. unfold f. destruct (Nat.ltb_spec i (2 * m)); lia. }
  assert (F2 : forall i, (2 * m <= i)%nat -> f i = (2 * m + sg (i - 2 * m))%nat).
  { intros i H. unfold f. destruct (Nat.ltb_spec i (2 * m)); lia. }
  clearbody f. exists f.
  assert (L : List.length (bl ++ br ++ rest) = (2 * m + List.length rest)%nat) by (rewrite !app_length; fold m; lia).
  assert (N1 : forall i, (i < m)%nat -> nth_error (bl ++ br ++ rest) i = nth_error bl i).
  { intros i H. apply nth_error_app1. lia. }
  assert (N2 : forall i, (m <= i)%nat -> (i < 2 * m)%nat -> nth_error (bl ++ br ++ rest) i = nth_error br (i - m)).
  { intros i H H'. rewrite nth_error_app2 by lia. rewrite Hl. apply nth_error_app1. fold m. lia. }
  assert (N3 : forall i, (2 * m <= i)%nat -> nth_error (bl ++ br ++ rest) i = nth_error rest (i - 2 * m)).
  { intros i H. rewrite nth_error_app2 by lia. rewrite nth_error_app2 by (fold m; lia). f_equal. fold m. lia. }
  split.
  - rewrite L. constructor.
    + intros i Hi. destruct (Nat.lt_ge_cases i (2 * m)) as [H|H].
      * rewrite F1 by auto. lia.
      * rewrite F2 by auto. pose proof (sw_lt _ _ Hs (i - 2 * m)). lia.
    + intros i Hi. destruct (Nat.lt_ge_cases i (2 * m)) as [H|H].
      * rewrite (F1 i) by auto. rewrite F1 by lia. lia.
      * rewrite (F2 i) by auto. rewrite F2 by lia.
        replace (2 * m + sg (i - 2 * m) - 2 * m)%nat with (sg (i - 2 * m)%nat) by lia.
        rewrite (sw_inv _ _ Hs) by lia. lia.
  - intros i s s' H H'. destruct (Nat.lt_ge_cases i (2 * m)) as [K|K].
    + rewrite F1 in H' by auto. destruct (Nat.lt_ge_cases i m).
      * rewrite N1 in H by auto. rewrite N2 in H' by lia. destruct (Hb _ _ H) as (s2 & E & Hm).
        replace (2 * m - 1 - i - m)%nat with (m - 1 - i)%nat in H' by lia.
        assert (s2 = s') by congruence. subst s2. eapply mirror_section_sym; eauto.
      * rewrite N2 in H by lia. rewrite N1 in H' by lia. destruct (Hb _ _ H') as (s2 & E & Hm).
        replace (m - 1 - (2 * m - 1 - i))%nat with (i - m)%nat in E by lia.
        assert (s2 = s) by congruence. subst s2. auto.
    + rewrite F2 in H' by auto. rewrite N3 in H by auto. rewrite N3 in H' by lia.
      replace (2 * m + sg (i - 2 * m) - 2 * m)%nat with (sg (i - 2 * m)%nat) in H' by lia.
      eapply Hr; eauto.
Qed.

Lemma sections_concat cosine (pl : airplane R) g : make_grid cosine pl = Ok g ->
  g_sections g = concat (map (block_of g) (seq 0 (List.length (wingsegments pl)))).
Proof.
  intros Hg. destruct (make_grid_spec _ _ Hg) as (blocks & HF & _ & _ & _ & Hsec & _).
  rewrite Hsec, concat_map. f_equal. apply nth_error_ext. intros k.
  rewrite nth_error_seq_map, nth_error_map.
  assert (L : List.length (wingsegments pl) = List.length blocks) by (clear -HF; induction HF; simpl; auto).
  destruct (Nat.ltb_spec k (List.length (wingsegments pl))) as [H|H].
  - destruct (nth_error (wingsegments pl) k) as [sg|] eqn:Ek; [|apply nth_error_None in Ek; lia].
    destruct (block_of_spec _ _ _ Hg Ek) as (b & Hb & Ebk). cbn [Nat.add]. rewrite Ebk.
    destruct (Forall2_nth_l _ HF Ek) as (b' & -> & Hb'). cbn [option_map]. congruence.
  - assert (E : nth_error blocks k = None) by (apply nth_error_None; lia). now rewrite E.
Qed.

Lemma symmetric_segments (pl : airplane R) w : built pl -> In w (lookup_wings pl) -> symmetric_wing pl w ->
  exists sl sr, wing_segments w = [sl; sr].
Proof.
  intros Hb Hw Hsym. pose proof (built_wings_ok Hb) as Hst.
  assert (Hok : wing_ok w).
  { unfold lookup_wings in Hw. apply in_flat_map in Hw. destruct Hw as (e & _ & He).
    destruct (nth_error (a_store pl) (snd e)) as [w'|] eqn:E; simpl in He; [|contradiction].
    destruct He as [->|[]]. rewrite Forall_forall in Hst. apply Hst. eapply nth_error_In; eauto. }
  destruct (symmetric_pair pl w Hst Hok Hsym) as (l & r & Hl & Hr & _).
  assert (Hside : w_side w = WBoth) by (destruct Hsym; auto).
  exists l, r. unfold wing_segments. rewrite Hside, Hl, Hr. reflexivity.
Qed.

Lemma symmetric_paired cosine (pl : airplane R) g : built pl -> make_grid cosine pl = Ok g ->
  (forall w, In w (lookup_wings pl) -> symmetric_wing pl w) ->
  (forall s, In s (wingsegments pl) -> 0 < sg_span s) ->
  exists sg, paired (g_sections g) sg.
Proof.
  intros Hb Hg Hsym Hspan. rewrite (sections_concat _ _ _ Hg).
  assert (G : forall ws pre, lookup_wings pl = pre ++ ws ->
    exists sg, paired (concat (map (block_of g) (seq (List.length (flat_map wing_segments pre))
                                                     (List.length (flat_map wing_segments ws))))) sg).
  { induction ws as [|w ws IH]; intros pre E.
    - exists (fun i => i). apply paired_nil.
    - assert (Hw : In w (lookup_wings pl)) by (rewrite E; apply in_elt).
      destruct (symmetric_segments pl w Hb Hw (Hsym w Hw)) as (sl & sr & Es).
      destruct (IH (pre ++ [w])) as [sg Hsg]; [rewrite E, <- app_assoc; reflexivity|].
      rewrite flat_map_app, app_length in Hsg. cbn [flat_map] in Hsg. rewrite Es, app_nil_r in Hsg. cbn [List.length] in Hsg.
      set (k := List.length (flat_map wing_segments pre)) in *.
      assert (Esegs : wingsegments pl = flat_map wing_segments pre ++ sl :: sr :: flat_map wing_segments ws).
      { unfold wingsegments. rewrite E, flat_map_app. cbn [flat_map]. rewrite Es. reflexivity. }
      assert (K1 : nth_error (wingsegments pl) k = Some sl).
      { rewrite Esegs, nth_error_app2 by (unfold k; lia). unfold k. rewrite Nat.sub_diag. reflexivity. }
      assert (K2 : nth_error (wingsegments pl) (S k) = Some sr).
      { rewrite Esegs, nth_error_app2 by (unfold k; lia).
        replace (S k - List.length (flat_map wing_segments pre))%nat with 1%nat by (unfold k; lia). reflexivity. }
      assert (Hs : 0 < sg_span sl) by (apply Hspan; eapply nth_error_In; eauto).
      destruct (block_mirror cosine pl g w k sl sr Hb Hg Hw (Hsym w Hw) Es K1 K2 Hs) as [Hn Hm].
      cbn [flat_map]. rewrite Es. cbn [app List.length]. cbn [seq map concat].
      destruct (block_of_spec _ _ _ Hg K1) as (b1 & B1 & E1). destruct (block_of_spec _ _ _ Hg K2) as (b2 & B2 & E2).
      apply segment_block_length in B1, B2.
      assert (L1 : List.length (block_of g k) = sg_num sl) by (rewrite E1, map_length; auto).
      assert (L2 : List.length (block_of g (S k)) = sg_num sr) by (rewrite E2, map_length; auto).
      replace (k + 2)%nat with (S (S k)) in Hsg by lia.
      apply paired_app with sg; [congruence| |exact Hsg].
      intros i s Hi. destruct (Hm i s Hi) as (s' & Hs' & Em). exists s'. rewrite L2. split; [exact Hs'|].
      assert (En : s_name s = sg_name sl) by (rewrite Em; reflexivity). rewrite En. exact Em. }
  destruct (G (lookup_wings pl) [] eq_refl) as [sg Hsg]. exists sg. exact Hsg.
Qed.

(** *** Symmetric flow over the sections *)
Lemma symmetric_freestream V a : vy (freestream (T := R) V a 0) = 0 /\ vy (unit_of (freestream V a 0)) = 0.
Proof.
  assert (E : vy (freestream (T := R) V a 0) = 0).
  { unfold freestream. cbn [vy]. rnum. replace (0 * PI / 180) with 0 by field. rewrite sin_0. ring. }
  split; auto. unfold unit_of. rewrite vdivs_scale. unfold vscale. cbn [vy]. rewrite E. rnum. ring.
Qed.
Lemma symmetric_commanded c s s' : symmetric_controls c -> mirrored s s' -> commanded c s = commanded c s'.
Proof.
  intros [H1 H2] H. unfold commanded. rewrite H1, H2, (mi_e _ _ H), (mi_f _ _ H). ring.
Qed.
Lemma map2_nth {A B C} (f : A -> B -> C) : forall a b i,
  nth_error (map2 f a b) i = match nth_error a i, nth_error b i with Some x, Some y => Some (f x y) | _, _ => None end.
Proof. induction a as [|x a IH]; intros [|y b] [|i]; simpl; auto. destruct (nth_error a i); auto. Qed.

Lemma C29_lemma ls cosine pl g h k d r s' : exact_solver ls -> built pl -> make_grid cosine pl = Ok g ->
  (forall w, In w (lookup_wings pl) -> symmetric_wing pl w) ->
  (forall s, In s (wingsegments pl) -> 0 < sg_span s) ->
  k_aero k = Some d -> given_aero (Some d) -> symmetric_flow d -> vy (k_cg k) = 0 ->
  symmetric_controls (acting g h k) ->
  call_solve ls g k (after ls g h) = (Ok r, s') ->
  exists res, l_results s' = Some res /\
    (forall f, In f (parts res) -> FY f = 0 /\ FS f = 0 /\ MX f = 0 /\ MZ f = 0) /\
    exists gam, l_gamma s' = Some gam /\
      forall i s y, nth_error (g_sections g) i = Some s -> nth_error gam i = Some y ->
      exists j t, nth_error (g_sections g) j = Some t /\ t = mirror_section (s_name t) s /\
                  nth_error gam j = Some y.
Proof.
  intros He Hb Hg Hsym Hspan Ek Ha Hfl Hcg Hc H.
  pose proof (grid_num _ _ _ Hg) as Hn.
  destruct (symmetric_paired cosine pl g Hb Hg Hsym Hspan) as (sg & Hsw & Hmir).
  pose proof (acting_controls _ _ _ _ _ _ Hn H) as Hca.
  pose proof (ll_solve_sized ls g Hn (k_cg k) (k_stype k) (k_aero k) (k_ctl k) _ (after_sized ls g Hn h)) as Hz.
  unfold call_solve in H. rewrite H in Hz. cbn [snd] in Hz.
  destruct (ll_solve_solved _ _ _ _ _ _ _ H) as (_ & s1 & s2 & gam & H1 & H2 & H3 & Hs).
  rewrite Ek in H1.
  pose proof (process_aero_base g (k_cg k) d (after ls g h) Hn Ha) as P. rewrite H1 in P.
  destruct (base_flow (g_num g) d) as [[[v u] rho]|e] eqn:Eb; [|discriminate].
  destruct P as (s1' & E & Ev & Eu & Er & _ & _ & L1 & L2). inversion E; subst s1'; clear E.
  destruct (process_control_flow _ _ _ H2) as (F1 & F2 & F3 & _).
  unfold inputs in H3. inversion H3 as [[G1 G2 G3 G4 G5]].
  assert (Ev' : l_v s' = map2 (at_section (body_rates (an d)) (k_cg k)) v (g_sections g)) by congruence.
  assert (Eu' : l_uinf s' = u) by congruence. assert (Er' : l_rho s' = rho) by congruence.
  clear G1 G2 G3 G4 G5 F1 F2 F3 Ev Eu Er.
  destruct Hfl as (Hals & Hbeta & Hroll & Hyaw).
  unfold base_flow in Eb. rewrite Hals, Hbeta in Eb.
  destruct (dget (an d) "V_mag") as [V|]; [|discriminate]. destruct (dget (an d) "rho") as [rh|]; [|discriminate].
  inversion Eb as [[E1 E2 E3]]. clear Eb.
  destruct (symmetric_freestream V (entry (an d) "alpha")) as [Hfy Huy].
  set (f := freestream V (entry (an d) "alpha") 0) in *.
  assert (Hu : vy (l_uinf s') = 0) by (rewrite Eu', <- E2; exact Huy).
  destruct Hz as (Lv & Lr & Ld & Le).
  exists (assemble (l_uinf s') (solve_cells (l_uinf s') (k_cg k) (cells g s') gam)).
  split; [apply (sv_results Hs)|].
  destruct (exact_answer _ _ _ _ He (sv_gamma Hs)) as [Hsol Huni].
  assert (Lc : List.length (cells g s') = List.length (g_sections g)) by (unfold cells; apply cells_of_length; auto).
  assert (Hcm : forall i c c', nth_error (cells g s') i = Some c -> nth_error (cells g s') (sg i) = Some c' -> cell_mirrored c' c).
  { intros i c c' Hi Hi'.
    assert (Hz : sized g s') by (repeat split; auto).
    destruct (cell_eff _ _ _ _ _ Hz Hca Hi) as [D1 D2]. destruct (cell_eff _ _ _ _ _ Hz Hca Hi') as [D1' D2'].
    unfold cells in Hi, Hi'. rewrite cells_of_nth in Hi, Hi' by auto.
    rewrite Ev', Er', <- E1, <- E3 in Hi, Hi'. rewrite !map2_nth in Hi, Hi'.
    destruct (nth_error (g_sections g) i) as [s|] eqn:Es; [|discriminate].
    destruct (nth_error (g_sections g) (sg i)) as [t|] eqn:Et; [|discriminate].
    assert (Hst : mirrored t s) by (rewrite (Hmir _ _ _ Es Et); apply mirrored_of).
    destruct (nth_error (repeat f (g_num g)) i) as [v1|] eqn:Ev1; [|discriminate].
    destruct (nth_error (repeat f (g_num g)) (sg i)) as [v2|] eqn:Ev2; [|discriminate].
    destruct (nth_error (repeat rh (g_num g)) i) as [r1|] eqn:Er1; [|discriminate].
    destruct (nth_error (repeat rh (g_num g)) (sg i)) as [r2|] eqn:Er2; [|discriminate].
    apply nth_error_In, repeat_spec in Ev1, Ev2, Er1, Er2. subst v1 v2 r1 r2.
    destruct (nth_error (l_delta s') i) as [de|]; [|discriminate]. destruct (nth_error (l_eff s') i) as [ef|]; [|discriminate].
    destruct (nth_error (l_delta s') (sg i)) as [de'|]; [|discriminate]. destruct (nth_error (l_eff s') (sg i)) as [ef'|]; [|discriminate].
    injection Hi as <-. injection Hi' as <-. cbn [c_sec c_v c_rho c_delta c_eff] in *.
    rewrite (symmetric_commanded _ _ _ Hc Hst) in D1', D2'.
    constructor; cbn [c_sec c_v c_rho c_delta c_eff]; auto; try congruence.
    unfold at_section, body_rates. rewrite Hroll, Hyaw, (mi_r _ _ Hst).
    destruct f as [fx fy fz]. cbn [vy] in Hfy. subst fy. destruct (k_cg k) as [gx gy gz]. cbn [vy] in Hcg. subst gy.
    unfold mirror. vunf. apply vec_eq; cbn [vx vy vz]; ring. }
  assert (Hsw' : swaps (List.length (cells g s')) sg) by (rewrite Lc; exact Hsw).
  set (d0 := MkCell (MkSection "" 0 0 0 vzero vzero vzero 0 0 0 0 (Tri 0 0 0) (Tri 0 0 0) (Tri 0 0 0) (Tri 0 0 0)
        (Tri 0 0 0) (Tri 0 0 0) (Tri 0 0 0) (Tri 0 0 0) 0 0 0 0 vzero vzero vzero 0 0 0 0 0 0 0) vzero 0 0 0 : cell R).
  split.
  - intros q Hq. exact (assembled_balanced (l_uinf s') (k_cg k) (cells g s') gam sg Hu Hcg Hsw' Hcm Hsol Huni d0 q Hq).
  - exists gam. split; [apply (sv_l_gamma Hs)|]. intros i s y Hi Hy.
    assert (Hin : (i < List.length (g_sections g))%nat) by (apply nth_error_Some; congruence).
    pose proof (sw_lt _ _ Hsw i Hin) as Hj.
    destruct (nth_error (g_sections g) (sg i)) as [t|] eqn:Et; [|apply nth_error_None in Et; lia].
    exists (sg i), t. split; [exact Et|]. split; [exact (Hmir _ _ _ Hi Et)|].
    assert (Hin' : (i < List.length (cells g s'))%nat) by lia.
    pose proof (gam_symmetric (l_uinf s') (cells g s') gam sg Hu Hsw' Hcm Hsol Huni d0 i Hin') as Eg.
    unfold index_of in Eg. rewrite (nth_error_nth _ _ 0 Hy) in Eg.
    destruct (solves_rows _ _ _ Hsol) as [Lg _].
    rewrite (nth_error_nth' gam 0) by lia. now rewrite Eg.
Qed.
