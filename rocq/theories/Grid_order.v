(** The grid of an airplane whose wings are named and entered otherwise (C78). *)
From Coq Require Import Reals ZArith String Bool Arith Lia Lra List Permutation.
From Verif Require Import Base Num RVec Geometry Grid Grid_facts Grid_props LLModel PropModel MU Spec_LL LL_R LL_solve LL_sym Spec_Order LL_order.
Import ListNotations.
Local Open Scope string_scope.
Local Open Scope R_scope.

Definition bare (s : segment R) : segment R := renamed_half (fun k => k) "" s.
Lemma bare_renamed g nm s : bare (renamed_half g nm s) = renamed_half g "" s.
Proof. unfold bare, renamed_half. cbn. destruct (sg_parent s); reflexivity. Qed.

Definition parent_pos (fuel : nat) (pl : airplane R) (s : segment R) : res (vec3 R) :=
  match sg_parent s with
  | PNone => Ok vzero
  | PAirplane => Ok (airplane_position pl)
  | PWing id => match nth_error (a_store pl) id with
      | None => Err AttributeError
      | Some w => if String.eqb (sg_connect_at s) "left_tip" then
            match w_left w with Some q => seg_position fuel pl q (sg_connect_at s) | None => Err AttributeError end
          else if String.eqb (sg_connect_at s) "right_tip" then
            match w_right w with Some q => seg_position fuel pl q (sg_connect_at s) | None => Err AttributeError end
          else Err RuntimeError end end.
Lemma position_step fuel pl s at_ : seg_position (S fuel) pl s at_ =
  if String.eqb at_ "left_tip" then rlet p := parent_pos fuel pl s in Ok (vadd (seg_local_left s) p)
  else if String.eqb at_ "right_tip" then rlet p := parent_pos fuel pl s in Ok (vadd (seg_local_right s) p)
  else Err RuntimeError.
Proof. reflexivity. Qed.

Section Re.
  Variables (g : nat -> nat) (pl pl' : airplane R).
  Hypothesis H : reordered_by g pl pl'.
  Lemma position_renamed : forall fuel s nm at_, seg_position fuel pl' (renamed_half g nm s) at_ = seg_position fuel pl s at_.
  Proof.
    induction fuel as [|fuel IH]; intros s nm at_; [reflexivity|]. rewrite !position_step.
    assert (P : parent_pos fuel pl' (renamed_half g nm s) = parent_pos fuel pl s).
    { unfold parent_pos. cbn [renamed_half sg_parent sg_connect_at]. destruct (sg_parent s) as [| |id]; [reflexivity|..].
      - unfold airplane_position. now rewrite (ro_position _ _ _ H).
      - pose proof (ro_wings _ _ _ H id) as W. destruct (nth_error (a_store pl) id) as [w|], (nth_error (a_store pl') (g id)) as [w'|]; try contradiction; [|reflexivity].
        destruct W as (_ & Wl & Wr). destruct (String.eqb (sg_connect_at s) "left_tip"); [|destruct (String.eqb (sg_connect_at s) "right_tip"); [|reflexivity]].
        + destruct (w_left w) as [q|], (w_left w') as [q'|]; cbn [same_half] in Wl; try contradiction; [|reflexivity]. rewrite Wl. apply IH.
        + destruct (w_right w) as [q|], (w_right w') as [q'|]; cbn [same_half] in Wr; try contradiction; [|reflexivity]. rewrite Wr. apply IH. }
    rewrite P. reflexivity.
  Qed.
  Lemma position_bare fuel s at_ : seg_position fuel pl' (bare s) at_ = seg_position fuel pl' s at_.
  Proof. destruct fuel as [|fuel]; [reflexivity|]. rewrite !position_step. assert (P : parent_pos fuel pl' (bare s) = parent_pos fuel pl' s) by (unfold parent_pos; cbn [bare renamed_half sg_parent sg_connect_at]; destruct (sg_parent s); reflexivity). rewrite P. reflexivity. Qed.

  Lemma section_renamed c h nm s L R0 i : anonymous (make_section c (renamed_half h nm s) L R0 i) = anonymous (make_section c s L R0 i).
  Proof.
    unfold make_section. cbn [renamed_half sg_num sg_side sg_root_chord sg_tip_chord sg_washout sg_mount sg_dihedral sg_root_af sg_tip_af sg_sweep sg_name].
    assert (E : forall x, section_control (renamed_half h nm s) x = section_control s x) by reflexivity. rewrite E. clear E.
    destruct (lr_of_side _ (sg_root_chord s) _). destruct (lr_of_side _ n0 _).
    destruct (unit_vectors _ _ _ _) as [[? ?] ?]. destruct (lr_of_side _ (sg_root_af s) _).
    destruct (section_control s _) as [[? ?] [[[? ?] ?] ?]]. reflexivity.
  Qed.
  (** The sections of a bare half, without names. *)
  Definition bare_block (s : segment R) : option (list (section R)) :=
    match segment_block true pl' s with Ok b => Some (map anonymous b) | Err _ => None end.
  Lemma fuel_eq : position_fuel pl' = position_fuel pl.
  Proof. unfold position_fuel. now rewrite (ro_number _ _ _ H). Qed.
  Lemma block_old s : bare_block (renamed_half g "" s) = match segment_block true pl s with Ok b => Some (map anonymous b) | Err _ => None end.
  Proof.
    unfold bare_block, segment_block. rewrite fuel_eq, !position_renamed.
    change (sg_num (renamed_half g "" s)) with (sg_num s). change (seg_control_span (renamed_half g "" s)) with (seg_control_span s).
    destruct (true && (sg_num s =? 0)%nat); [reflexivity|].
    destruct (seg_position _ pl s "left_tip") as [L|]; cbn [rbind]; [|reflexivity].
    destruct (seg_position _ pl s "right_tip") as [R0|]; cbn [rbind]; [|reflexivity].
    destruct (seg_control_span s) as [a b]. match goal with |- context [if ?b then _ else _] => destruct b end; [reflexivity|].
    f_equal. rewrite !map_map. apply map_ext. intros i. apply section_renamed.
  Qed.
  Lemma block_new s : bare_block (bare s) = match segment_block true pl' s with Ok b => Some (map anonymous b) | Err _ => None end.
  Proof.
    unfold bare_block, segment_block. rewrite !position_bare.
    change (sg_num (bare s)) with (sg_num s). change (seg_control_span (bare s)) with (seg_control_span s).
    destruct (true && (sg_num s =? 0)%nat); [reflexivity|].
    destruct (seg_position _ pl' s "left_tip") as [L|]; cbn [rbind]; [|reflexivity].
    destruct (seg_position _ pl' s "right_tip") as [R0|]; cbn [rbind]; [|reflexivity].
    destruct (seg_control_span s) as [a b]. match goal with |- context [if ?b then _ else _] => destruct b end; [reflexivity|].
    f_equal. rewrite !map_map. apply map_ext. intros i. unfold bare. apply section_renamed.
  Qed.

  Lemma wing_segments_same w w' : same_wing g w w' -> map bare (wing_segments w') = map (renamed_half g "") (wing_segments w).
  Proof.
    intros (Es & El & Er). unfold wing_segments. rewrite Es.
    assert (B : forall a b, same_half g a b -> map bare (optl b) = map (renamed_half g "") (optl a)).
    { intros [s|] [s'|] E; cbn in E; try contradiction; [|reflexivity]. cbn [optl map]. rewrite E. now rewrite bare_renamed. }
    destruct (w_side w); rewrite ?map_app, ?(B _ _ El), ?(B _ _ Er); reflexivity.
  Qed.
  Lemma segments_perm : Permutation (map (renamed_half g "") (wingsegments pl)) (map bare (wingsegments pl')).
  Proof.
    pose proof (ro_listed _ _ _ H) as P. unfold wingsegments, lookup_wings.
    set (h := fun k => map bare (flat_map wing_segments (optl (nth_error (a_store pl') k)))).
    assert (A : map bare (flat_map wing_segments (flat_map (fun e => optl (nth_error (a_store pl') (snd e))) (a_wings pl'))) = flat_map h (map snd (a_wings pl'))).
    { unfold h. clear. induction (a_wings pl') as [|e l IH]; cbn [flat_map map]; [reflexivity|]. rewrite flat_map_app, map_app, IH. reflexivity. }
    assert (B : map (renamed_half g "") (flat_map wing_segments (flat_map (fun e => optl (nth_error (a_store pl) (snd e))) (a_wings pl))) = flat_map h (map (fun e => g (snd e)) (a_wings pl))).
    { unfold h. clear A P h. induction (a_wings pl) as [|e l IH]; cbn [flat_map map]; [reflexivity|]. rewrite flat_map_app, map_app, IH. f_equal.
      pose proof (ro_wings _ _ _ H (snd e)) as W. destruct (nth_error (a_store pl) (snd e)) as [w|], (nth_error (a_store pl') (g (snd e))) as [w'|]; try contradiction; [|reflexivity].
      cbn [optl flat_map]. rewrite !app_nil_r. symmetry. now apply wing_segments_same. }
    rewrite A, B. now apply Permutation_flat_map.
  Qed.

  Definition blocks_of (l : list (segment R)) : list (section R) := flat_map (fun s => match bare_block s with Some b => b | None => [] end) l.
  Definition area_of (l : list (segment R)) : R :=
    nsum (map (fun s => if sg_is_main s then nsum (map (@s_dS R) (match bare_block s with Some b => b | None => [] end)) else 0) l).
  Lemma grid_bare (q : airplane R) (k : segment R -> segment R) gr :
    (forall s, bare_block (k s) = match segment_block true q s with Ok b => Some (map anonymous b) | Err _ => None end) ->
    (forall s, sg_is_main (k s) = sg_is_main s) -> make_grid true q = Ok gr ->
    map anonymous (g_sections gr) = map set_ic2 (blocks_of (map k (wingsegments q))) /\
    g_ref_area gr = area_of (map k (wingsegments q)) /\
    (forall s, In s (map k (wingsegments q)) -> bare_block s <> None).
  Proof.
    intros E M G. destruct (make_grid_spec _ _ G) as (bl & F & _ & _ & _ & Es & Ea). rewrite Es, Ea. clear Es Ea G gr.
    rewrite map_map. change (map (fun s => anonymous (set_ic2 s)) (concat bl)) with (map (fun s => set_ic2 (anonymous s)) (concat bl)). rewrite <- (map_map anonymous set_ic2).
    assert (A : forall acc, fold_left (fun a p => add_ref_area (fst p) (snd p) a) (combine (wingsegments q) bl) acc = acc + area_of (map k (wingsegments q))).
    { clear - E M F. unfold area_of. induction F as [|s b l bl Hb F IH]; intros acc; cbn [combine fold_left map].
      - rnum. unfold nsum. cbn. rnum. ring.
      - rewrite IH, nsum_cons, E, Hb, M. unfold add_ref_area. cbn [fst snd]. destruct (sg_is_main s); [|rnum; ring].
        assert (Md : map (@s_dS R) (map anonymous b) = map (@s_dS R) b) by (rewrite map_map; reflexivity). rewrite Md. rnum. ring. }
    split; [|split].
    - f_equal. unfold blocks_of. clear - E F. induction F as [|s b l bl Hb F IH]; cbn [concat map flat_map]; [reflexivity|].
      rewrite map_app, E, Hb, IH. reflexivity.
    - rewrite A. rnum. ring.
    - intros s Hs. apply in_map_iff in Hs. destruct Hs as (t & <- & Ht). rewrite E.
      apply In_nth_error in Ht. destruct Ht as [i Hi]. destruct (Forall2_nth_l i F Hi) as (b & _ & Hb). cbn in Hb. rewrite Hb. discriminate.
  Qed.
  Lemma grid_exists (q : airplane R) (k : segment R -> segment R) :
    (forall s, bare_block (k s) = match segment_block true q s with Ok b => Some (map anonymous b) | Err _ => None end) ->
    (forall s, In s (map k (wingsegments q)) -> bare_block s <> None) -> exists gr, make_grid true q = Ok gr.
  Proof.
    intros E A. assert (B : exists bl, Forall2 (fun sg b => segment_block true q sg = Ok b) (wingsegments q) bl).
    { revert A. induction (wingsegments q) as [|s l IH]; intros A; [exists []; constructor|].
      destruct IH as [bl F]; [intros t Ht; apply A; simpl; auto|]. specialize (A (k s) (or_introl eq_refl)). rewrite E in A.
      destruct (segment_block true q s) as [b|] eqn:Eb; [|contradiction]. exists (b :: bl). constructor; auto. }
    destruct B as [bl F]. exact (make_grid_succeeds _ _ F).
  Qed.
  Definition wide (m : R) (s : segment R) : R := let span := n2 * sg_span s in if ngtb span m then span else m.
  Lemma wide_max m s : wide m s = Rmax (2 * sg_span s) m.
  Proof.
    unfold wide, ngtb. rnum. destruct (Rltb m (2 * sg_span s)) eqn:K.
    - apply Rltb_true in K. rewrite Rmax_left; lra.
    - apply Rltb_false in K. rewrite Rmax_right; lra.
  Qed.
  Lemma widest_perm (l l' : list (segment R)) : Permutation l l' -> forall m, fold_left wide l m = fold_left wide l' m.
  Proof.
    induction 1 as [|x l l' _ IH|x y l|l l' l'' _ IH1 _ IH2]; intros m; cbn [fold_left]; auto.
    - f_equal. rewrite !wide_max. rewrite !Rmax_assoc. f_equal. apply Rmax_comm.
    - congruence.
  Qed.
  Lemma widest_map k l : (forall s, sg_span (k s) = sg_span s) -> forall m, fold_left wide (map k l) m = fold_left wide l m.
  Proof. intros E. induction l as [|s l IH]; intros m; cbn [map fold_left]; [reflexivity|]. rewrite IH. unfold wide. now rewrite E. Qed.
  Lemma num_perm : num_sections pl' = num_sections pl.
  Proof.
    rewrite !num_sections_sum. pose proof (Permutation_map (@sg_num R) segments_perm) as P. rewrite !map_map in P.
    change (map (fun x => sg_num (renamed_half g "" x)) (wingsegments pl)) with (map (@sg_num R) (wingsegments pl)) in P.
    change (map (fun x => sg_num (bare x)) (wingsegments pl')) with (map (@sg_num R) (wingsegments pl')) in P. symmetry.
    revert P. generalize (map (@sg_num R) (wingsegments pl)), (map (@sg_num R) (wingsegments pl')). clear.
    induction 1; cbn [list_sum fold_right] in *; unfold list_sum in *; cbn [fold_right] in *; lia.
  Qed.
  Theorem grids_same :
    match make_grid true pl, make_grid true pl' with
    | Ok gr, Ok gr' => (exists f, renumbers (g_num gr) f /\ same_grid (g_num gr) f gr gr') /\ make_refs pl' gr' = make_refs pl gr
    | Err _, Err _ => True
    | _, _ => False
    end.
  Proof.
    assert (Hm1 : forall s, sg_is_main (renamed_half g "" s) = sg_is_main s) by reflexivity.
    assert (Hm2 : forall s, sg_is_main (bare s) = sg_is_main s) by reflexivity.
    pose proof segments_perm as P.
    destruct (make_grid true pl) as [gr|] eqn:G, (make_grid true pl') as [gr'|] eqn:G'; [| | |exact I].
    - destruct (grid_bare pl _ gr block_old Hm1 G) as (S1 & A1 & _). destruct (grid_bare pl' _ gr' block_new Hm2 G') as (S2 & A2 & _).
      assert (Q : Permutation (map anonymous (g_sections gr')) (map anonymous (g_sections gr))).
      { rewrite S1, S2. apply Permutation_map. unfold blocks_of. apply Permutation_flat_map. now symmetry. }
      destruct (make_grid_spec _ _ G) as (bl & F & N1 & Sg & _ & Es & _). destruct (make_grid_spec _ _ G') as (bl' & F' & N2 & Sg' & _ & Es' & _).
      assert (Ln : List.length (g_sections gr) = g_num gr) by (rewrite N1; apply (grid_bookkeeping _ _ _ _ _ G)).
      assert (Ln' : List.length (g_sections gr') = g_num gr) by (rewrite N1, <- num_perm; apply (grid_bookkeeping _ _ _ _ _ G')).
      split.
      + apply Permutation_nth_error_bis in Q. destruct Q as (f & Inj & Bd & E). exists f.
        rewrite map_length, Ln' in Bd. split; [constructor; [exact Bd|intros; now apply Inj]|].
        split; [reflexivity|split; [rewrite N1, N2; apply num_perm|]]. split; [now rewrite map_length|split; [now rewrite map_length|]].
        intros i _. symmetry. apply E.
      + assert (Ar : g_ref_area gr' = g_ref_area gr).
        { rewrite A1, A2. unfold area_of. apply nsum_perm, Permutation_map. now symmetry. }
        assert (Wd : widest (g_segments gr') = widest (g_segments gr)).
        { rewrite Sg, Sg'. change (fold_left wide (wingsegments pl') n0 = fold_left wide (wingsegments pl) n0).
          rewrite <- (widest_map bare) by reflexivity. rewrite <- (widest_map (renamed_half g "") (wingsegments pl)) by reflexivity.
          apply widest_perm. now symmetry. }
        unfold make_refs. rewrite Ar, Wd, (ro_lat _ _ _ H), (ro_long _ _ _ H). reflexivity.
    - destruct (grid_bare pl _ gr block_old Hm1 G) as (_ & _ & A).
      destruct (grid_exists pl' _ block_new) as [gr' K]; [|congruence]. intros s Hs. apply A. eapply Permutation_in; [symmetry; exact P|exact Hs].
    - destruct (grid_bare pl' _ gr' block_new Hm2 G') as (_ & _ & A).
      destruct (grid_exists pl _ block_old) as [gr K]; [|congruence]. intros s Hs. apply A. eapply Permutation_in; [exact P|exact Hs].
  Qed.
End Re.
