(** The sections of an airplane that is its own mirror image (C76). *)
From Coq Require Import Reals ZArith String Bool Arith Lia Lra List.
From Verif Require Import Base Num RVec Geometry Api Grid LLModel Spec_Grid Spec_Geom Spec_LL LL_state LL_R LL_solve
  Grid_facts Grid_thm Mirror LL_props LL_thm LL_thm2 LL_sym Spec_Mirror LL_mirror.
Import ListNotations.
Local Open Scope string_scope.
Local Open Scope R_scope.

(** *** Fins *)
Lemma upright_cos s : upright s -> ncos (nrad (sg_dihedral s)) = 0.
Proof.
  intros H. destruct (up_dihedral H) as [-> | ->]; rnum.
  - replace (90 * PI / 180) with (PI / 2) by field. apply cos_PI2.
  - replace (-90 * PI / 180) with (- (PI / 2)) by field. rewrite cos_neg. apply cos_PI2.
Qed.
Lemma point_in_plane (L R' : vec3 R) t : vy L = 0 -> vy R' = 0 -> mirror (segment_point L R' t) = segment_point L R' t.
Proof.
  intros H1 H2. apply mirror_fix. unfold segment_point, unit_s. cbv zeta. cbn [vy].
  rewrite vdivs_scale. unfold vscale, vsub. cbn [vy]. rewrite H1, H2. rnum. ring.
Qed.
Lemma mix_entry (c : control_surface R) side k : k = "elevator" \/ k = "flap" ->
  entry (cs_mix c) k = 0 -> dgetd (cs_get_mix c side) k n0 = 0.
Proof.
  intros Hk H. unfold cs_get_mix. unfold entry in H.
  destruct (dget (cs_mix c) "aileron"), (dget (cs_mix c) "rudder"), (dget (cs_mix c) "elevator") eqn:E1, (dget (cs_mix c) "flap") eqn:E2;
  destruct Hk as [-> | ->]; try rewrite E1 in H; try rewrite E2 in H; subst;
  unfold dgetd; cbn [app dget String.eqb Ascii.eqb Bool.eqb]; auto.
Qed.
Lemma upright_vectors side (m w d : R) ua un us : m = 0 -> w = 0 -> ncos (nrad d) = 0 -> unit_vectors side m w d = (ua, un, us) ->
  mirror un = vopp un /\ mirror ua = ua /\ mirror us = us.
Proof.
  intros -> -> Hc Eu. unfold unit_vectors in Eu. cbv zeta in Eu. rewrite Hc in Eu.
  assert (E0 : nrad (nsub 0 0 : R) = 0) by (rnum; field). rewrite E0 in Eu. cbn [nsin ncos Rnum] in Eu. rewrite sin_0, cos_0 in Eu.
  generalize dependent (sin (nrad d)). intros sd Eu.
  destruct side; injection Eu as <- <- <-;
  refine (conj _ (conj _ _)); unfold mirror, vopp, vcross; cbn [vx vy vz]; rnum; apply vec_eq; cbn [vx vy vz]; ring.
Qed.
Lemma upright_section cosine (s : segment R) (L R' : vec3 R) i : upright s -> vy L = 0 -> vy R' = 0 ->
  fin_section (set_ic2 (make_section cosine s L R' i)).
Proof.
  intros H HL HR.
  pose proof (upright_cos s H) as Hc. destruct (up_twist H) as [Hm Hw].
  destruct (up_airfoils H) as [(A1 & A2 & A3 & A4) (B1 & B2 & B3 & B4)]. destruct (up_control H) as [K1 K2].
  unfold make_section. set (t := sp_cp cosine (sg_num s) i).
  assert (Hmix : forall fe cmd ma me mr mf, section_control s t = (fe, cmd, (ma, me, mr, mf)) -> me = 0 /\ mf = 0).
  { intros fe cmd ma me mr mf Ec. unfold section_control in Ec. destruct (seg_control_span s), (seg_control_chord s).
    destruct (_ && _) in Ec; [|injection Ec as <- <- <- <- <- <-; split; reflexivity].
    unfold seg_control_mix in Ec. injection Ec as <- <- <- <- <- <-. split; apply mix_entry; auto. }
  destruct (section_control s t) as [[fe cmd] [[[ma me] mr] mf]] eqn:Ec.
  destruct (Hmix _ _ _ _ _ _ eq_refl) as [M1 M2]. clear Hmix.
  assert (Hw' : forall p q, lr_of_side (sg_side s) n0 (sg_washout s) = (p, q) -> interp p q t = 0).
  { intros p q E. rewrite Hw in E. destruct (sg_side s); injection E as <- <-; unfold interp; rnum; ring. }
  destruct (lr_of_side (sg_side s) n0 (sg_washout s)) as [wl wr]. specialize (Hw' _ _ eq_refl).
  destruct (lr_of_side (sg_side s) (sg_root_chord s) (sg_tip_chord s)) as [cl cr].
  assert (Haf : forall a b, lr_of_side (sg_side s) (sg_root_af s) (sg_tip_af s) = (a, b) ->
     (af_alpha_L0 a = 0 /\ af_Cm_L0 a = 0 /\ af_Cm_alpha a = 0 /\ af_CD_L a = 0) /\
     (af_alpha_L0 b = 0 /\ af_Cm_L0 b = 0 /\ af_Cm_alpha b = 0 /\ af_CD_L b = 0)).
  { intros a b E. destruct (sg_side s); injection E as <- <-; tauto. }
  destruct (lr_of_side (sg_side s) (sg_root_af s) (sg_tip_af s)) as [fa fb]. specialize (Haf _ _ eq_refl).
  destruct (unit_vectors (sg_side s) (sg_mount s) (interp wl wr t) (sg_dihedral s)) as [[ua un] us] eqn:Eu.
  destruct (upright_vectors _ _ _ _ _ _ _ Hm Hw' Hc Eu) as (E1 & E2 & E3).
  constructor; cbn [set_ic2 interp_tri s_r s_r1 s_r2 s_un s_ua s_us s_al0 s_cml0 s_cma s_cd1 s_mix_e s_mix_f tl tr]; try tauto;
  apply point_in_plane; auto.
Qed.

Lemma local_in_plane (s : segment R) : upright s -> vy (seg_local_left s) = 0 /\ vy (seg_local_right s) = 0.
Proof.
  intros H. pose proof (upright_cos s H) as Hc. destruct (up_plane H) as [Hy Hd].
  unfold seg_local_left, seg_local_right. cbv zeta. rewrite Hc, Hy, Hd.
  destruct (sg_side s); cbn [vy]; rnum; split; ring.
Qed.
Lemma fin_upright pl w s : fin pl w -> half_of w s -> upright s.
Proof. intros [v H|v id p H _ _] Hs; apply H in Hs; tauto. Qed.
Lemma fin_in_plane pl w : fin pl w -> forall f s at_ p, half_of w s -> seg_position f pl s at_ = Ok p -> vy p = 0.
Proof.
  induction 1 as [w H|w id q H Hq Hf IH]; intros f s at_ p Hs; (destruct f as [|f]; [discriminate|]);
  rewrite seg_position_S; destruct (H s Hs) as [Hu Hp]; destruct (local_in_plane s Hu) as [L1 L2].
  - assert (G : forall pos, vy pos = 0 ->
       (if String.eqb at_ "left_tip" then Ok (vadd (seg_local_left s) pos)
        else if String.eqb at_ "right_tip" then Ok (vadd (seg_local_right s) pos) else Err RuntimeError) = Ok p -> vy p = 0).
    { intros pos Hpos K. destruct (String.eqb at_ "left_tip"); [|destruct (String.eqb at_ "right_tip"); [|discriminate]];
      injection K as <-; unfold vadd; cbn [vy]; rewrite Hpos, ?L1, ?L2; rnum; ring. }
    destruct Hp as [Hp|[Hp Hv]]; rewrite Hp; cbv zeta; intros K; eapply G; try exact K; auto.
  - rewrite Hp, Hq. cbv zeta. intros K.
    assert (G : forall q0 e pp, half_of q q0 -> seg_position f pl q0 e = Ok pp -> vy pp = 0) by (intros; eapply IH; eauto).
    clear IH.
    destruct (String.eqb (sg_connect_at s) "left_tip").
    + destruct (w_left q) as [q0|] eqn:Eq.
      * destruct (seg_position f pl q0 (sg_connect_at s)) as [pp|] eqn:Ep.
        -- assert (Hpp : vy pp = 0) by (eapply G; eauto; now left). cbn in K.
           destruct (String.eqb at_ "left_tip"); [|destruct (String.eqb at_ "right_tip"); [|discriminate]];
           injection K as <-; unfold vadd; cbn [vy]; rewrite Hpp, ?L1, ?L2; rnum; ring.
        -- cbn in K. destruct (String.eqb at_ "left_tip"); [|destruct (String.eqb at_ "right_tip")]; discriminate.
      * cbn in K. destruct (String.eqb at_ "left_tip"); [|destruct (String.eqb at_ "right_tip")]; discriminate.
    + destruct (String.eqb (sg_connect_at s) "right_tip").
      * destruct (w_right q) as [q0|] eqn:Eq.
        -- destruct (seg_position f pl q0 (sg_connect_at s)) as [pp|] eqn:Ep.
           ++ assert (Hpp : vy pp = 0) by (eapply G; eauto; now right). cbn in K.
              destruct (String.eqb at_ "left_tip"); [|destruct (String.eqb at_ "right_tip"); [|discriminate]];
              injection K as <-; unfold vadd; cbn [vy]; rewrite Hpp, ?L1, ?L2; rnum; ring.
           ++ cbn in K. destruct (String.eqb at_ "left_tip"); [|destruct (String.eqb at_ "right_tip")]; discriminate.
        -- cbn in K. destruct (String.eqb at_ "left_tip"); [|destruct (String.eqb at_ "right_tip")]; discriminate.
      * cbn in K. destruct (String.eqb at_ "left_tip"); [|destruct (String.eqb at_ "right_tip")]; discriminate.
Qed.
Lemma fin_block cosine pl g w k s : make_grid cosine pl = Ok g -> fin pl w -> half_of w s ->
  nth_error (wingsegments pl) k = Some s -> Forall fin_section (block_of g k).
Proof.
  intros Hg Hw Hs Hk. destruct (block_of_spec _ _ _ Hg Hk) as (b & Hb & E).
  destruct (segment_block_inv _ _ _ Hb) as (_ & L & R' & HL & HR & _ & ->).
  rewrite E. apply Forall_forall. intros x Hx. rewrite map_map in Hx. apply in_map_iff in Hx. destruct Hx as (i & <- & _).
  apply upright_section; [now apply (fin_upright pl w)| |]; eapply fin_in_plane; eauto.
Qed.

(** *** Pairing *)
Inductive sec_pair : R -> section R -> section R -> Prop :=
| sp_plus s s' : s = mirror_section (s_name s) s' -> sec_pair 1 s s'
| sp_fin s : fin_section s -> sec_pair (-1) s s.
Record matched (secs : list (section R)) (sg : nat -> nat) (e : nat -> R) : Prop := {
  ma_swaps : swaps (List.length secs) sg;
  ma_sign : forall i, (i < List.length secs)%nat -> e (sg i) = e i;
  ma_self : forall i, (i < List.length secs)%nat -> e i = -1 -> sg i = i;
  ma_pair : forall i s s', nth_error secs i = Some s -> nth_error secs (sg i) = Some s' -> sec_pair (e i) s' s
}.
Lemma matched_app a b sa ea sb eb : matched a sa ea -> matched b sb eb -> exists sg e, matched (a ++ b) sg e.
Proof.
  intros HA HB. set (m := List.length a).
  set (f := fun i => if (i <? m)%nat then sa i else (m + sb (i - m))%nat).
  set (e := fun i => if (i <? m)%nat then ea i else eb (i - m)%nat).
  assert (F1 : forall i, (i < m)%nat -> f i = sa i) by (intros i H; unfold f; destruct (Nat.ltb_spec i m); lia).
  assert (F2 : forall i, (m <= i)%nat -> f i = (m + sb (i - m))%nat) by (intros i H; unfold f; destruct (Nat.ltb_spec i m); lia).
  assert (E1 : forall i, (i < m)%nat -> e i = ea i) by (intros i H; unfold e; destruct (Nat.ltb_spec i m); [auto|lia]).
  assert (E2 : forall i, (m <= i)%nat -> e i = eb (i - m)%nat) by (intros i H; unfold e; destruct (Nat.ltb_spec i m); [lia|auto]).
  clearbody f e. exists f, e.
  assert (L : List.length (a ++ b) = (m + List.length b)%nat) by (rewrite app_length; reflexivity).
  pose proof (sw_lt _ _ (ma_swaps _ _ _ HA)) as A1. fold m in A1.
  pose proof (sw_lt _ _ (ma_swaps _ _ _ HB)) as B1.
  assert (SUB : forall x, (m + x - m)%nat = x) by (intros; lia).
  constructor; rewrite ?L.
  - constructor; intros i Hi; destruct (Nat.lt_ge_cases i m) as [H|H].
    + rewrite F1 by auto. specialize (A1 i H). lia.
    + rewrite F2 by auto. specialize (B1 (i - m)%nat). lia.
    + rewrite (F1 i), F1 by auto. now apply (sw_inv _ _ (ma_swaps _ _ _ HA)).
    + rewrite (F2 i), F2 by lia. rewrite SUB, (sw_inv _ _ (ma_swaps _ _ _ HB)) by lia. lia.
  - intros i Hi. destruct (Nat.lt_ge_cases i m) as [H|H].
    + rewrite F1, !E1 by auto. now apply (ma_sign _ _ _ HA).
    + rewrite F2, !E2 by lia. rewrite SUB. apply (ma_sign _ _ _ HB). lia.
  - intros i Hi. destruct (Nat.lt_ge_cases i m) as [H|H].
    + rewrite F1, E1 by auto. now apply (ma_self _ _ _ HA).
    + rewrite F2, E2 by lia. intros K. rewrite (ma_self _ _ _ HB) by (auto; lia). lia.
  - intros i s s'. destruct (Nat.lt_ge_cases i m) as [H|H].
    + rewrite F1, E1 by auto. rewrite !nth_error_app1 by (fold m; auto). apply (ma_pair _ _ _ HA).
    + rewrite F2, E2 by auto. rewrite !nth_error_app2 by (fold m; lia). fold m. rewrite SUB. apply (ma_pair _ _ _ HB).
Qed.
Lemma matched_fin secs : Forall fin_section secs -> matched secs (fun i => i) (fun _ => -1).
Proof.
  intros H. constructor; auto; [now constructor|]. intros i s s' H1 H2. assert (s' = s) by congruence. subst.
  constructor. rewrite Forall_forall in H. apply H. eapply nth_error_In; eauto.
Qed.
Lemma matched_paired secs sg : paired secs sg -> matched secs sg (fun _ => 1).
Proof.
  intros [H1 H2]. constructor; auto; [intros; lra|]. intros i s s' Hs Hs'. constructor. eauto.
Qed.

Lemma mirror_matched cosine (pl : airplane R) g : built pl -> make_grid cosine pl = Ok g -> mirror_symmetric pl ->
  exists sg e, matched (g_sections g) sg e.
Proof.
  intros Hb Hg [Hsym Hspan]. rewrite (sections_concat _ _ _ Hg).
  assert (G : forall ws pre, lookup_wings pl = (pre ++ ws)%list ->
    exists sg e, matched (concat (map (block_of g) (seq (List.length (flat_map wing_segments pre))
                                                     (List.length (flat_map wing_segments ws))))) sg e).
  { induction ws as [|w ws IH]; intros pre E.
    - exists (fun i => i), (fun _ => -1). apply matched_fin. constructor.
    - assert (Hw : In w (lookup_wings pl)) by (rewrite E; apply in_elt).
      destruct (IH (pre ++ [w])%list) as (sg & e & Hsg); [rewrite E, <- app_assoc; reflexivity|].
      rewrite flat_map_app, app_length in Hsg. cbn [flat_map] in Hsg. rewrite app_nil_r in Hsg.
      cbn [flat_map]. rewrite app_length, seq_app, map_app, concat_app.
      set (k := List.length (flat_map wing_segments pre)) in *.
      assert (Esegs : wingsegments pl = (flat_map wing_segments pre ++ wing_segments w ++ flat_map wing_segments ws)%list).
      { unfold wingsegments. rewrite E, flat_map_app. reflexivity. }
      assert (K : forall j s, nth_error (wing_segments w) j = Some s -> nth_error (wingsegments pl) (k + j) = Some s).
      { intros j s Hj. rewrite Esegs, nth_error_app2 by (unfold k; lia). unfold k. rewrite Nat.add_comm, Nat.add_sub.
        rewrite nth_error_app1; auto. apply nth_error_Some. congruence. }
      assert (M : exists sg e, matched (concat (map (block_of g) (seq k (List.length (wing_segments w))))) sg e).
      { destruct (Hsym w Hw) as [Hs|Hf].
        - destruct (symmetric_segments pl w Hb Hw Hs) as (sl & sr & Es).
          assert (K1 := K 0%nat sl ltac:(now rewrite Es)). assert (K2 := K 1%nat sr ltac:(now rewrite Es)).
          rewrite Nat.add_0_r in K1. rewrite Nat.add_1_r in K2.
          assert (Hp : 0 < sg_span sl) by (apply Hspan; eapply nth_error_In; eauto).
          destruct (block_mirror cosine pl g w k sl sr Hb Hg Hw Hs Es K1 K2 Hp) as [Hn Hm].
          rewrite Es. cbn [List.length seq map concat].
          destruct (block_of_spec _ _ _ Hg K1) as (b1 & B1 & E1). destruct (block_of_spec _ _ _ Hg K2) as (b2 & B2 & E2).
          apply segment_block_length in B1, B2.
          assert (L1 : List.length (block_of g k) = sg_num sl) by (rewrite E1, map_length; auto).
          assert (L2 : List.length (block_of g (S k)) = sg_num sr) by (rewrite E2, map_length; auto).
          destruct (paired_app (block_of g k) (block_of g (S k)) [] (fun i => i)) as [sg' Hsg']; [congruence| |apply paired_nil|].
          + intros i s Hi. destruct (Hm i s Hi) as (s' & Hs' & Em). exists s'. rewrite L2. split; [exact Hs'|].
            assert (En : s_name s = sg_name sl) by (rewrite Em; reflexivity). rewrite En. exact Em.
          + exists sg', (fun _ => 1). now apply matched_paired.
        - exists (fun i => i), (fun _ => -1). apply matched_fin.
          apply Forall_forall. intros x Hx. apply in_concat in Hx. destruct Hx as (l & Hl & Hx).
          apply in_map_iff in Hl. destruct Hl as (j & <- & Hj). apply in_seq in Hj.
          destruct (nth_error (wing_segments w) (j - k)) as [s|] eqn:Es; [|apply nth_error_None in Es; lia].
          assert (Kj := K _ _ Es). replace (k + (j - k))%nat with j in Kj by lia.
          assert (Hh : half_of w s).
          { apply nth_error_In in Es. unfold wing_segments in Es. unfold half_of.
            destruct (w_side w), (w_left w), (w_right w); cbn in Es;
            repeat (destruct Es as [Es|Es]; [subst; auto|]); contradiction. }
          assert (Hb' := fin_block cosine pl g w j s Hg Hf Hh Kj). rewrite Forall_forall in Hb'. now apply Hb'. }
      destruct M as (sg1 & e1 & M). eapply matched_app; eauto. }
  destruct (G (lookup_wings pl) [] eq_refl) as (sg & e & Hsg). exists sg, e. exact Hsg.
Qed.
