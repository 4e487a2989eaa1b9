(** Generic facts about the grid construction (any arithmetic). *)
From Coq Require Import ZArith String Bool Arith Lia List.
From Verif Require Import Base Num Geometry Grid Spec_Grid.
Import ListNotations.
Set Implicit Arguments.

Lemma skipn_skipn A (l : list A) n m : skipn n (skipn m l) = skipn (m + n) l.
Proof.
  revert l; induction m; intros l; simpl; auto.
  destruct l; [destruct n; reflexivity|]. apply IHm.
Qed.

Section Facts.
  Context {T : Type} {N : num_ops T}.

  Lemma segment_block_length cosine (pl : airplane T) sg b :
    segment_block cosine pl sg = Ok b -> List.length b = sg_num sg.
  Proof.
    unfold segment_block. destruct (cosine && (sg_num sg =? 0)); [discriminate|].
    destruct (seg_position _ pl sg "left_tip"); simpl; [|discriminate].
    destruct (seg_position _ pl sg "right_tip"); simpl; [|discriminate].
    destruct (seg_control_span sg) as [s0 s1].
    destruct (neqb _ _); [discriminate|].
    intros H; inversion H; subst. now rewrite map_length, seq_length.
  Qed.

  Lemma fill_spec cosine (pl : airplane T) segs : forall idx slices arr area out,
    fill cosine pl segs idx slices arr area = Ok out ->
    idx + list_sum (map (@sg_num T) segs) <= List.length arr ->
    exists blocks,
      Forall2 (fun sg b => segment_block cosine pl sg = Ok b) segs blocks /\
      out = ((slices ++ consecutive idx (map (@sg_num T) segs))%list,
             (firstn idx arr ++ concat blocks ++
              skipn (idx + list_sum (map (@sg_num T) segs)) arr)%list,
             fold_left (fun a p => add_ref_area (fst p) (snd p) a) (combine segs blocks) area).
  Proof.
    induction segs as [|sg segs IH]; intros idx slices arr area out H Hlen.
    - simpl in H. inversion H; subst. exists []. split; [constructor|].
      simpl. rewrite Nat.add_0_r, firstn_skipn, app_nil_r. reflexivity.
    - cbn [fill] in H.
      destruct (segment_block cosine pl sg) as [b|e] eqn:Eb; [|discriminate].
      cbn [rbind] in H.
      pose proof (segment_block_length _ _ _ Eb) as Hb.
      simpl in Hlen.
      unfold write_block in H.
      destruct (Nat.leb_spec (idx + List.length b) (List.length arr)) as [Hle|Hle]; [|lia].
      cbn [rbind] in H.
      apply IH in H.
      + destruct H as (blocks & HF & Hout). exists (b :: blocks). split; [constructor; auto|].
        subst out. simpl. apply f_equal2; [apply f_equal2|reflexivity].
        * rewrite <- app_assoc. reflexivity.
        * (* arrays *)
          assert (Hf : List.length (firstn idx arr) = idx) by (rewrite firstn_length; lia).
          rewrite <- Hb at 1.
          rewrite (app_assoc (firstn idx arr) b).
          rewrite firstn_app.
          replace (firstn (idx + List.length b) (firstn idx arr ++ b)) with (firstn idx arr ++ b)
            by (symmetry; apply firstn_all2; rewrite app_length; lia).
          replace (idx + List.length b - List.length (firstn idx arr ++ b)) with 0
            by (rewrite app_length; lia).
          cbn [firstn]. rewrite app_nil_r. rewrite <- !app_assoc. f_equal. f_equal. f_equal.
          rewrite app_assoc, skipn_app.
          rewrite (skipn_all2 (firstn idx arr ++ b)) by (rewrite app_length; lia).
          simpl. rewrite skipn_skipn. f_equal. rewrite app_length, Hf. lia.
      + assert (Hf : List.length (firstn idx arr) = idx) by (rewrite firstn_length; lia).
        rewrite !app_length, skipn_length, Hf. lia.
  Qed.

  (** No shape error can occur: filling succeeds when every block does. *)
  Lemma fill_succeeds cosine (pl : airplane T) segs : forall blocks idx slices arr area,
    Forall2 (fun sg b => segment_block cosine pl sg = Ok b) segs blocks ->
    idx + list_sum (map (@sg_num T) segs) <= List.length arr ->
    exists out, fill cosine pl segs idx slices arr area = Ok out.
  Proof.
    induction segs as [|sg segs IH]; intros blocks idx slices arr area HF Hlen.
    - eexists; reflexivity.
    - inversion HF as [|? b ? bs Hb HF']; subst. cbn [fill]. rewrite Hb. cbn [rbind].
      pose proof (segment_block_length _ _ _ Hb) as Hlb. simpl in Hlen.
      unfold write_block.
      destruct (Nat.leb_spec (idx + List.length b) (List.length arr)) as [Hle|Hle]; [|lia].
      cbn [rbind]. eapply IH; eauto.
      assert (Hf : List.length (firstn idx arr) = idx) by (rewrite firstn_length; lia).
      rewrite !app_length, skipn_length, Hf. lia.
  Qed.

  Lemma fold_num_sections (ws : list (wing T)) acc :
    fold_left (fun acc w => acc + wing_num_sections w) ws acc
    = acc + list_sum (map (@sg_num T) (flat_map wing_segments ws)).
  Proof.
    revert acc. induction ws as [|w ws IH]; intros acc; simpl; [lia|].
    rewrite IH. rewrite map_app, list_sum_app.
    assert (wing_num_sections w = list_sum (map (@sg_num T) (wing_segments w))) as ->; [|lia].
    unfold wing_num_sections, wing_segments.
    destruct (w_side w), (w_left w), (w_right w); simpl; lia.
  Qed.

  Lemma num_sections_sum (pl : airplane T) :
    num_sections pl = list_sum (map (@sg_num T) (wingsegments pl)).
  Proof. unfold num_sections, wingsegments. now rewrite fold_num_sections. Qed.

  (** Everything about make_grid in one statement. *)
  Lemma make_grid_spec cosine (pl : airplane T) g :
    make_grid cosine pl = Ok g ->
    exists blocks,
      Forall2 (fun sg b => segment_block cosine pl sg = Ok b) (wingsegments pl) blocks /\
      g_num g = num_sections pl /\
      g_segments g = wingsegments pl /\
      g_slices g = consecutive 0 (map (@sg_num T) (wingsegments pl)) /\
      g_sections g = map set_ic2 (concat blocks) /\
      g_ref_area g = fold_left (fun a p => add_ref_area (fst p) (snd p) a)
                               (combine (wingsegments pl) blocks) n0.
  Proof.
    unfold make_grid. intros H.
    destruct (fill cosine pl (wingsegments pl) 0 [] (repeat zero_section (num_sections pl)) n0)
      as [out|e] eqn:E; [|discriminate].
    apply fill_spec in E; [|rewrite repeat_length, num_sections_sum; lia].
    destruct E as (blocks & HF & ->). cbn [rbind] in H. inversion H; subst g; clear H.
    exists blocks. cbn. repeat split; auto.
    f_equal. rewrite skipn_all2; [now rewrite app_nil_r|].
    rewrite repeat_length, num_sections_sum. lia.
  Qed.

  Lemma make_grid_succeeds cosine (pl : airplane T) blocks :
    Forall2 (fun sg b => segment_block cosine pl sg = Ok b) (wingsegments pl) blocks ->
    exists g, make_grid cosine pl = Ok g.
  Proof.
    intros HF. unfold make_grid.
    destruct (@fill_succeeds cosine pl (wingsegments pl) blocks 0 []
                (repeat zero_section (num_sections pl)) n0 HF) as [[[sl arr] ar] ->].
    - rewrite repeat_length, num_sections_sum. lia.
    - eexists; reflexivity.
  Qed.

  Lemma consecutive_nth sizes : forall start k a b,
    nth_error (consecutive start sizes) k = Some (a, b) ->
    a = start + list_sum (firstn k sizes) /\
    exists n, nth_error sizes k = Some n /\ b = a + n.
  Proof.
    induction sizes as [|n r IH]; intros start [|k] a b H; simpl in *; try discriminate.
    - inversion H; subst. split; [lia|]. exists n; auto.
    - apply IH in H. destruct H as (-> & m & Hm & ->). split; [lia|]. exists m; auto.
  Qed.

  Lemma consecutive_nth_some sizes : forall start k n,
    nth_error sizes k = Some n ->
    nth_error (consecutive start sizes) k
    = Some (start + list_sum (firstn k sizes), start + list_sum (firstn k sizes) + n).
  Proof.
    induction sizes as [|m r IH]; intros start [|k] n H; simpl in *; try discriminate.
    - inversion H; subst. f_equal. f_equal; lia.
    - rewrite (IH (start + m) k n H). f_equal. f_equal; lia.
  Qed.

  Lemma concat_block {A} (blocks : list (list A)) k b :
    nth_error blocks k = Some b ->
    firstn (List.length b) (skipn (list_sum (map (@List.length A) (firstn k blocks))) (concat blocks)) = b.
  Proof.
    revert k. induction blocks as [|c r IH]; intros [|k] H; simpl in *; try discriminate.
    - inversion H; subst. rewrite firstn_app, Nat.sub_diag. simpl.
      rewrite app_nil_r. apply firstn_all.
    - rewrite skipn_app. rewrite (skipn_all2 c) by lia.
      rewrite Nat.add_comm, Nat.add_sub. simpl. auto.
  Qed.

  Lemma Forall2_nth_l {A B} (P : A -> B -> Prop) l l' k x :
    Forall2 P l l' -> nth_error l k = Some x -> exists y, nth_error l' k = Some y /\ P x y.
  Proof.
    intros HF. revert k. induction HF; intros [|k] Hk; simpl in *; try discriminate.
    - inversion Hk; subst; eauto.
    - eauto.
  Qed.
  Lemma Forall2_nth_r {A B} (P : A -> B -> Prop) l l' k y :
    Forall2 P l l' -> nth_error l' k = Some y -> exists x, nth_error l k = Some x /\ P x y.
  Proof.
    intros HF. revert k. induction HF; intros [|k] Hk; simpl in *; try discriminate.
    - inversion Hk; subst; eauto.
    - eauto.
  Qed.

  Lemma block_sizes cosine (pl : airplane T) segs blocks :
    Forall2 (fun sg b => segment_block cosine pl sg = Ok b) segs blocks ->
    map (@List.length _) blocks = map (@sg_num T) segs.
  Proof.
    induction 1; simpl; auto. f_equal; auto. eapply segment_block_length; eauto.
  Qed.

  Lemma firstn_map {A B} (f : A -> B) n l : firstn n (map f l) = map f (firstn n l).
  Proof. revert l; induction n; destruct l; simpl; auto. now rewrite IHn. Qed.
  Lemma skipn_map {A B} (f : A -> B) n l : skipn n (map f l) = map f (skipn n l).
  Proof. revert l; induction n; destruct l; simpl; auto. Qed.

  (** The block of the k-th segment. *)
  Lemma block_of_spec cosine (pl : airplane T) g k sg :
    make_grid cosine pl = Ok g -> nth_error (wingsegments pl) k = Some sg ->
    exists b, segment_block cosine pl sg = Ok b /\ block_of g k = map set_ic2 b.
  Proof.
    intros Hg Hk. apply make_grid_spec in Hg.
    destruct Hg as (blocks & HF & _ & _ & Hsl & Hsec & _).
    destruct (Forall2_nth_l _ HF Hk) as (b & Hb & Hblk).
    exists b. split; auto.
    unfold block_of. rewrite Hsl, Hsec.
    erewrite consecutive_nth_some by (apply map_nth_error; exact Hk).
    simpl. replace (_ + sg_num sg - _) with (sg_num sg) by lia.
    rewrite skipn_map, firstn_map. f_equal.
    rewrite <- (segment_block_length _ _ _ Hblk).
    rewrite <- (block_sizes _ _ HF). rewrite firstn_map. now apply concat_block.
  Qed.

  Lemma concat_nth {A} (blocks : list (list A)) i x :
    nth_error (concat blocks) i = Some x ->
    exists k b j, nth_error blocks k = Some b /\ nth_error b j = Some x /\
                  i = list_sum (map (@List.length A) (firstn k blocks)) + j.
  Proof.
    revert i. induction blocks as [|b r IH]; intros i H; simpl in H.
    - destruct i; discriminate.
    - destruct (Nat.lt_ge_cases i (List.length b)) as [Hi|Hi].
      + rewrite nth_error_app1 in H by auto. exists 0, b, i. auto.
      + rewrite nth_error_app2 in H by auto.
        destruct (IH _ H) as (k & b' & j & H1 & H2 & H3).
        exists (S k), b', j. repeat split; auto. simpl. lia.
  Qed.

  Lemma concat_nth_in {A} (blocks : list (list A)) k b j x :
    nth_error blocks k = Some b -> nth_error b j = Some x ->
    nth_error (concat blocks) (list_sum (map (@List.length A) (firstn k blocks)) + j) = Some x.
  Proof.
    revert k. induction blocks as [|c r IH]; intros [|k] Hk Hj; simpl in *; try discriminate.
    - inversion Hk; subst. rewrite nth_error_app1; auto. apply nth_error_Some. congruence.
    - rewrite nth_error_app2 by lia. replace (_ - _) with (list_sum (map (@List.length A) (firstn k r)) + j) by lia.
      auto.
  Qed.

  (** Sections of a successful block are exactly make_section at the indices. *)
  Lemma segment_block_inv cosine (pl : airplane T) sg b :
    segment_block cosine pl sg = Ok b ->
    (cosine = true -> sg_num sg <> 0) /\
    exists L R, seg_position (position_fuel pl) pl sg "left_tip" = Ok L /\
                seg_position (position_fuel pl) pl sg "right_tip" = Ok R /\
                neqb (nsub (snd (seg_control_span sg)) (fst (seg_control_span sg))) n0 = false /\
                b = map (make_section cosine sg L R) (seq 0 (sg_num sg)).
  Proof.
    unfold segment_block. destruct (cosine && (sg_num sg =? 0)) eqn:E0; [discriminate|].
    intros H. split.
    - intros ->. simpl in E0. apply Nat.eqb_neq in E0. exact E0.
    - destruct (seg_position _ pl sg "left_tip") as [L|] eqn:EL; simpl in H; [|discriminate].
      destruct (seg_position _ pl sg "right_tip") as [R|] eqn:ER; simpl in H; [|discriminate].
      destruct (seg_control_span sg) as [s0 s1] eqn:E1.
      destruct (neqb _ _) eqn:E2; [discriminate|].
      inversion H; subst. exists L, R. auto.
  Qed.

  Lemma make_section_name cosine sg L R i : s_name (@make_section T N cosine sg L R i) = sg_name sg.
  Proof.
    unfold make_section.
    destruct (lr_of_side _ (sg_root_chord sg) _).
    destruct (lr_of_side _ n0 _).
    destruct (unit_vectors _ _ _ _) as [[? ?] ?].
    destruct (lr_of_side _ (sg_root_af sg) _).
    destruct (section_control sg _) as [[? ?] [[[? ?] ?] ?]].
    reflexivity.
  Qed.
End Facts.
