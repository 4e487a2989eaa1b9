(** Proofs behind Props_Grid.v. *)
From Coq Require Import Reals ZArith String Bool Arith Lia Lra List.
From Verif Require Import Base Num RVec Geometry Api Grid Spec_Grid Spec_Geom
     Grid_facts Grid_R Grid_thm Mirror Demo.
Import ListNotations.

Lemma consecutive_len a l : List.length (consecutive a l) = List.length l.
Proof. revert a; induction l; simpl; auto. Qed.

Lemma consecutive_cover sizes : forall start i,
  (start <= i < start + list_sum sizes)%nat ->
  exists! k, exists a b, nth_error (consecutive start sizes) k = Some (a, b) /\ (a <= i < b)%nat.
Proof.
  induction sizes as [|n r IH]; intros start i Hi; simpl in Hi; [lia|].
  destruct (Nat.lt_ge_cases i (start + n)) as [H|H].
  - exists 0%nat. split.
    + exists start, (start + n)%nat. simpl. split; auto. lia.
    + intros [|k] (a & b & Hk & Hab); auto. simpl in Hk.
      apply consecutive_nth in Hk. destruct Hk as (-> & _). lia.
  - destruct (IH (start + n)%nat i) as (k & (a & b & Hk & Hab) & Hu); [lia|].
    exists (S k). split.
    + exists a, b. auto.
    + intros [|k'] (a' & b' & Hk' & Hab'); simpl in Hk'.
      * inversion Hk'; subst. lia.
      * f_equal. apply Hu. eauto.
Qed.

Lemma list_sum_firstn l : forall k n, nth_error l k = Some n ->
  (list_sum (firstn k l) + n <= list_sum l)%nat.
Proof.
  induction l as [|x l IH]; intros [|k] n H; simpl in *; try discriminate.
  - inversion H; lia.
  - apply IH in H. lia.
Qed.

Lemma list_sum_firstn_S l : forall k n, nth_error l k = Some n ->
  list_sum (firstn (S k) l) = (list_sum (firstn k l) + n)%nat.
Proof.
  induction l as [|x l IH]; intros [|k] n H; simpl in *; try discriminate.
  - inversion H; lia.
  - apply IH in H. simpl in H. lia.
Qed.

Lemma grid_bookkeeping (T : Type) (N : num_ops T) cosine (pl : airplane T) g :
    make_grid cosine pl = Ok g ->
    List.length (g_sections g) = num_sections pl /\
    g_num g = num_sections pl /\
    num_sections pl = list_sum (map (@sg_num T) (wingsegments pl)) /\
    List.length (g_slices g) = List.length (wingsegments pl) /\
    (forall i, (i < num_sections pl)%nat ->
       exists! k, exists a b, nth_error (g_slices g) k = Some (a, b) /\ (a <= i < b)%nat) /\
    (forall k a b, nth_error (g_slices g) k = Some (a, b) -> (a <= b <= num_sections pl)%nat) /\
    (forall k a b a' b', nth_error (g_slices g) k = Some (a, b) ->
                         nth_error (g_slices g) (S k) = Some (a', b') -> a' = b) /\
    (forall k sg, nth_error (wingsegments pl) k = Some sg ->
       List.length (block_of g k) = sg_num sg /\
       forall s, In s (block_of g k) -> s_name s = sg_name sg).
Proof.
  intros Hg. pose proof Hg as Hg'. apply make_grid_spec in Hg.
  destruct Hg as (blocks & HF & Hn & Hseg & Hsl & Hsec & _).
  assert (Hlen : List.length (concat blocks) = list_sum (map (@sg_num T) (wingsegments pl))).
  { rewrite <- (block_sizes _ _ HF). clear. induction blocks; simpl; auto. now rewrite app_length, IHblocks. }
  split; [|split; [|split; [|split; [|split; [|split; [|split]]]]]].
  - rewrite Hsec, map_length, Hlen. symmetry. apply num_sections_sum.
  - exact Hn.
  - apply num_sections_sum.
  - rewrite Hsl, consecutive_len, map_length. reflexivity.
  - intros i Hi. rewrite Hsl. apply consecutive_cover. rewrite num_sections_sum in Hi. lia.
  - intros k a b H. rewrite Hsl in H. apply consecutive_nth in H.
    destruct H as (-> & n & Hk & ->). rewrite num_sections_sum.
    pose proof (list_sum_firstn _ _ _ Hk). lia.
  - intros k a b a' b' H H'. rewrite Hsl in H, H'.
    apply consecutive_nth in H. destruct H as (-> & n & Hk & ->).
    apply consecutive_nth in H'. destruct H' as (-> & n' & Hk' & ->).
    rewrite (list_sum_firstn_S _ _ _ Hk). lia.
  - intros k sg Hk. destruct (block_of_spec _ _ _ Hg' Hk) as (b & Hb & E). rewrite E. split.
    + rewrite map_length. eapply segment_block_length; eauto.
    + intros s Hs. apply segment_block_inv in Hb. destruct Hb as (_ & L & R' & _ & _ & _ & ->).
      rewrite map_map in Hs. apply in_map_iff in Hs. destruct Hs as (i & <- & _).
      cbn [set_ic2 s_name]. apply make_section_name.
Qed.

Lemma segment_order (T : Type) (N : num_ops T) name pos (cs : list (api_call T)) :
    all_return cs (new_airplane name pos) -> NoDup (map fst (added cs)) ->
    map (@sg_name T) (wingsegments (run_calls cs (new_airplane name pos)))
    = flat_map (fun p => segment_names (fst p) (snd p)) (added cs).
Proof.
  intros Hr Hnd.
  assert (Hw : wings_are ([] ++ added cs) (run_calls cs (new_airplane name pos))).
  { apply wings_are_run; auto. split; reflexivity. }
  simpl in Hw. set (pl := run_calls cs (new_airplane name pos)) in *.
  unfold wingsegments. rewrite (lookup_wings_all Hw).
  destruct Hw as [_ Hst]. rewrite <- Hst.
  assert (Hok : Forall (@wing_ok T) (a_store pl)) by (apply built_wings_ok, built_calls; constructor).
  clear - Hok. induction Hok as [|w l Hw Hl IH]; simpl; auto.
  rewrite map_app. f_equal; auto.
  rewrite (wing_ok_names w Hw). unfold segment_names, wing_label, wside_str. simpl.
  destruct (w_side w); reflexivity.
Qed.

Local Open Scope R_scope.

Lemma grid_partitions cosine (pl : airplane R) g k sg L R' :
    make_grid cosine pl = Ok g -> nth_error (wingsegments pl) k = Some sg ->
    (1 <= sg_num sg)%nat ->
    seg_position (position_fuel pl) pl sg "left_tip" = Ok L ->
    seg_position (position_fuel pl) pl sg "right_tip" = Ok R' ->
    L <> R' ->
    partitions L R' (block_of g k).
Proof.
  intros Hg Hk Hn HL HR HLR. destruct (block_of_spec _ _ _ Hg Hk) as (b & Hb & ->).
  destruct (block_inv _ _ _ _ Hb) as (L0 & R0 & HL0 & HR0 & ->).
  rewrite HL in HL0. rewrite HR in HR0. inversion HL0; inversion HR0; subst.
  apply partitions_block; auto.
Qed.

Lemma grid_area cosine (pl : airplane R) g k sg :
    make_grid cosine pl = Ok g -> nth_error (wingsegments pl) k = Some sg ->
    (1 <= sg_num sg)%nat -> 0 < sg_span sg -> 0 < cos (nrad (sg_sweep sg)) ->
    total (@s_dS R) (block_of g k)
    = trapezoid_area (sg_span sg) (sg_root_chord sg) (sg_tip_chord sg).
Proof.
  intros Hg Hk Hn Hs Hc. destruct (block_of_spec _ _ _ Hg Hk) as (b & Hb & ->).
  rewrite total_nsum, map_map. cbn [set_ic2 s_dS]. eapply block_area; eauto.
Qed.

Lemma grid_chord2 cosine (pl : airplane R) g k sg :
    make_grid cosine pl = Ok g -> nth_error (wingsegments pl) k = Some sg ->
    (1 <= sg_num sg)%nat -> 0 < sg_span sg ->
    total (@s_ic2 R) (block_of g k)
    = trapezoid_chord2 (sg_span sg) (sg_root_chord sg) (sg_tip_chord sg).
Proof.
  intros Hg Hk Hn Hs. destruct (block_of_spec _ _ _ Hg Hk) as (b & Hb & ->).
  rewrite total_nsum. eapply block_chord2; eauto.
Qed.

Lemma grid_ref_area cosine (pl : airplane R) g :
    make_grid cosine pl = Ok g ->
    (forall sg, In sg (wingsegments pl) -> sg_is_main sg = true ->
       (1 <= sg_num sg)%nat /\ 0 < sg_span sg /\ 0 < cos (nrad (sg_sweep sg))) ->
    g_ref_area g = total (fun sg => trapezoid_area (sg_span sg) (sg_root_chord sg) (sg_tip_chord sg))
                         (filter (@sg_is_main R) (wingsegments pl)).
Proof.
  intros Hg H. destruct (make_grid_spec _ _ Hg) as (blocks & HF & _ & _ & _ & _ & ->).
  rewrite (ref_area_fold _ _ _ _ _ HF H). rnum. ring.
Qed.

(** every section of the grid lies in some block *)
Lemma in_some_block {T} {N : num_ops T} cosine (pl : airplane T) g s :
  make_grid cosine pl = Ok g -> In s (g_sections g) ->
  exists k sg, nth_error (wingsegments pl) k = Some sg /\ In s (block_of g k).
Proof.
  intros Hg Hs. pose proof Hg as Hg'. apply make_grid_spec in Hg.
  destruct Hg as (blocks & HF & _ & _ & _ & Hsec & _).
  rewrite Hsec in Hs. apply in_map_iff in Hs. destruct Hs as (s0 & <- & Hs0).
  apply in_concat in Hs0. destruct Hs0 as (b & Hb & Hin).
  apply In_nth_error in Hb. destruct Hb as (k & Hk).
  destruct (Forall2_nth_r _ HF Hk) as (sg & Hsg & Hblk).
  exists k, sg. split; auto.
  destruct (block_of_spec _ _ _ Hg' Hsg) as (b' & Hb' & ->).
  rewrite Hb' in Hblk. inversion Hblk; subst. now apply in_map.
Qed.

Lemma grid_frames cosine (pl : airplane R) g s :
    make_grid cosine pl = Ok g -> In s (g_sections g) ->
    orthonormal_frame (s_ua s) (s_un s) (s_us s).
Proof.
  intros Hg Hs. destruct (in_some_block _ _ _ _ Hg Hs) as (k & sg & Hk & Hin).
  destruct (block_section _ _ _ _ _ _ Hg Hk Hin) as (L & R' & i & Hi & -> & _).
  cbn [set_ic2 s_ua s_un s_us].
  pose proof (ms_frame cosine sg L R' i) as H.
  pose proof (unit_vectors_orthonormal (sg_side sg) (sg_mount sg) (wash_at cosine sg i) (sg_dihedral sg)) as Ho.
  rewrite <- H in Ho. exact Ho.
Qed.

Lemma grid_frame_general cosine (pl : airplane R) g k sg s :
    make_grid cosine pl = Ok g -> nth_error (wingsegments pl) k = Some sg -> In s (block_of g k) ->
    let t := (s_mount s - s_washout s) * PI / 180 in
    let d := sg_dihedral sg * PI / 180 in
    s_ua s = V3 (- cos t) (side_sign (sg_side sg) * sin d * sin t) (cos d * sin t) /\
    s_un s = V3 (- sin t) (- (side_sign (sg_side sg) * sin d * cos t)) (- (cos d * cos t)).
Proof.
  intros Hg Hk Hin. destruct (block_section _ _ _ _ _ _ Hg Hk Hin) as (L & R' & i & Hi & -> & _).
  cbn [set_ic2 s_ua s_un s_us s_mount s_washout].
  pose proof (ms_frame cosine sg L R' i) as H.
  destruct (ms_angles cosine sg L R' i) as (-> & _ & _).
  rewrite (ms_washout cosine sg L R' i).
  unfold unit_vectors in H. unfold side_sign. destruct (sg_side sg); inversion H as [[H1 H2 H3]];
  rewrite H1, H2; rnum; cbn [vx vy vz]; split; apply vec_eq; cbn; ring.
Qed.

Lemma grid_frame_zero cosine (pl : airplane R) g k sg s :
    make_grid cosine pl = Ok g -> nth_error (wingsegments pl) k = Some sg -> In s (block_of g k) ->
    s_mount s = s_washout s -> sg_dihedral sg = 0 ->
    s_ua s = V3 (-1) 0 0 /\ s_un s = V3 0 0 (-1) /\ s_us s = V3 0 (-1) 0.
Proof.
  intros Hg Hk Hin Hm Hd.
  assert (Hs : In s (g_sections g)).
  { unfold block_of in Hin. destruct (nth_error (g_slices g) k) as [[a b]|]; [|destruct Hin].
    apply (In_nth _ _ s) in Hin. destruct Hin as (j & Hj & Ej).
    rewrite firstn_length, skipn_length in Hj.
    rewrite <- (firstn_skipn a (g_sections g)). apply in_or_app. right.
    rewrite <- (firstn_skipn (b - a) (skipn a (g_sections g))). apply in_or_app. left.
    rewrite <- Ej. apply nth_In. rewrite firstn_length, skipn_length. lia. }
  destruct (grid_frames _ _ _ _ Hg Hs) as [_ _ _ _ _ _ Hcr].
  destruct (grid_frame_general _ _ _ _ _ _ Hg Hk Hin) as (Ha & Hn).
  rewrite Hd, Hm in Ha, Hn.
  replace ((s_washout s - s_washout s) * PI / 180) with 0 in * by field.
  replace (0 * PI / 180) with 0 in * by field.
  rewrite sin_0, cos_0 in Ha, Hn.
  rewrite Hcr, Ha, Hn. repeat split; unfold vcross; rnum; apply vec_eq; cbn; ring.
Qed.

Lemma ms_control_split cosine (sg : segment R) L R' i fe cmd a e r f :
  section_control sg (sp_cp cosine (sg_num sg) i) = (fe, cmd, (a, e, r, f)) ->
  let s := set_ic2 (make_section cosine sg L R' i) in
  s_mix_a s = a /\ s_mix_e s = e /\ s_mix_r s = r /\ s_mix_f s = f /\ s_flap_eff s = fe /\ s_cmd s = cmd.
Proof.
  intros H. pose proof (ms_control cosine sg L R' i) as Hc. rewrite H in Hc.
  cbn [set_ic2 s_mix_a s_mix_e s_mix_r s_mix_f s_flap_eff s_cmd]. inversion Hc. auto 10.
Qed.

Lemma grid_control cosine (pl : airplane R) g k sg s :
    make_grid cosine pl = Ok g -> nth_error (wingsegments pl) k = Some sg -> In s (block_of g k) ->
    let c := sg_control sg in
    let t := from_root (sg_side sg) (s_sp s) in
    (covered c t ->
       s_mix_a s = side_sign (sg_side sg) * mix_of c "aileron" /\
       s_mix_e s = mix_of c "elevator" /\
       s_mix_r s = side_sign (sg_side sg) * mix_of c "rudder" /\
       s_mix_f s = mix_of c "flap" /\
       s_flap_eff s = (if cs_sealed c then 1 else 8 / 10) * hinge_efficiency (flap_chord c t)
                      * ideal_effectiveness (flap_chord c t) /\
       s_cmd s = flap_moment_slope (flap_chord c t)) /\
    (~ covered c t ->
       s_mix_a s = 0 /\ s_mix_e s = 0 /\ s_mix_r s = 0 /\ s_mix_f s = 0 /\
       s_flap_eff s = 0 /\ s_cmd s = 0).
Proof.
  intros Hg Hk Hin. destruct (block_section _ _ _ _ _ _ Hg Hk Hin) as (L & R' & i & Hi & -> & _ & _ & Hne).
  intros c t.
  assert (Et : t = from_root (sg_side sg) (sp_cp cosine (sg_num sg) i)).
  { unfold t. cbn [set_ic2 s_sp]. now rewrite ms_sp. }
  clearbody t. subst t.
  destruct (section_control_spec sg (sp_cp cosine (sg_num sg) i) Hne) as [Hc Hn].
  split; intros H; [apply Hc in H|apply Hn in H];
  pose proof (ms_control_split cosine sg L R' i _ _ _ _ _ _ H) as HH; exact HH.
Qed.

Lemma grid_zero_chord cosine (pl : airplane R) g k sg s :
    make_grid cosine pl = Ok g -> nth_error (wingsegments pl) k = Some sg -> In s (block_of g k) ->
    cs_chord_root (sg_control sg) = 0 -> cs_chord_tip (sg_control sg) = 0 ->
    s_flap_eff s = 0 /\ s_cmd s = 0.
Proof.
  intros Hg Hk Hin H0 H1.
  destruct (grid_control _ _ _ _ _ _ Hg Hk Hin) as [Hc Hn].
  set (c := sg_control sg) in *. set (t := from_root (sg_side sg) (s_sp s)) in *.
  assert (Ez : flap_chord c t = 0) by (unfold flap_chord, between; rewrite H0, H1; ring).
  destruct (Rlt_dec (cs_span_root c) t) as [A|A]; [destruct (Rlt_dec t (cs_span_tip c)) as [B|B]|].
  - destruct (Hc (conj A B)) as (_ & _ & _ & _ & -> & ->). rewrite Ez.
    destruct zero_chord_ineffective as [-> ->]. split; ring.
  - destruct Hn as (_ & _ & _ & _ & ? & ?); auto. intros [? ?]; contradiction.
  - destruct Hn as (_ & _ & _ & _ & ? & ?); auto. intros [? ?]; contradiction.
Qed.

Lemma section_control_sealed (sg : segment R) s :
  cs_sealed (sg_control sg) = true ->
  section_control (set_sealed false sg) s =
  let '(fe, cmd, m) := section_control sg s in (8 / 10 * fe, cmd, m).
Proof.
  intros H. unfold section_control, set_sealed, seg_control_span, seg_control_chord, seg_control_mix, cs_get_mix.
  cbn [sg_control sg_side cs_span_root cs_span_tip cs_chord_root cs_chord_tip cs_sealed cs_mix]. rewrite H.
  destruct (sg_side sg); (destruct (ngtb _ _ && nltb _ _)%bool; rnum; repeat apply (f_equal2 pair); try reflexivity);
  rewrite ?Rdec_8; ring.
Qed.

Lemma grid_sealed cosine (pl pl' : airplane R) g g' k sg sg' i s s' :
    make_grid cosine pl = Ok g -> make_grid cosine pl' = Ok g' ->
    nth_error (wingsegments pl) k = Some sg -> nth_error (wingsegments pl') k = Some sg' ->
    sg' = set_sealed false sg -> cs_sealed (sg_control sg) = true ->
    nth_error (block_of g k) i = Some s -> nth_error (block_of g' k) i = Some s' ->
    s_flap_eff s' = 8 / 10 * s_flap_eff s /\ s_cmd s' = s_cmd s /\
    (s_mix_a s', s_mix_e s', s_mix_r s', s_mix_f s') = (s_mix_a s, s_mix_e s, s_mix_r s, s_mix_f s).
Proof.
  intros Hg Hg' Hk Hk' E Hse Hi Hi'.
  destruct (block_of_spec _ _ _ Hg Hk) as (b & Hb & Eb).
  destruct (block_of_spec _ _ _ Hg' Hk') as (b' & Hb' & Eb').
  destruct (segment_block_inv _ _ _ Hb) as (_ & L & R' & _ & _ & _ & ->).
  destruct (segment_block_inv _ _ _ Hb') as (_ & L' & R'' & _ & _ & _ & ->).
  rewrite Eb, map_map, nth_error_seq_map in Hi. rewrite Eb', map_map, nth_error_seq_map in Hi'.
  destruct (Nat.ltb_spec i (sg_num sg)); [|discriminate].
  destruct (Nat.ltb_spec i (sg_num sg')); [|discriminate].
  inversion Hi; inversion Hi'; subst s s'. simpl Nat.add.
  pose proof (section_control_sealed sg (sp_cp cosine (sg_num sg) i) Hse) as Hc.
  destruct (section_control sg (sp_cp cosine (sg_num sg) i)) as [[fe cmd] [[[a e] r] f]] eqn:E1.
  assert (E2 : section_control sg' (sp_cp cosine (sg_num sg') i) = (8 / 10 * fe, cmd, (a, e, r, f)))
    by (subst sg'; exact Hc).
  destruct (ms_control_split cosine sg L R' i _ _ _ _ _ _ E1) as (A1 & A2 & A3 & A4 & A5 & A6).
  destruct (ms_control_split cosine sg' L' R'' i _ _ _ _ _ _ E2) as (B1 & B2 & B3 & B4 & B5 & B6).
  rewrite A1, A2, A3, A4, A5, A6, B1, B2, B3, B4, B5, B6. auto.
Qed.

Lemma make_cs_sealed (T : Type) (N : num_ops T) (dims : dict (pyval T)) c :
    make_cs dims = Ok c ->
    cs_sealed c = match dget dims "sealed" with Some v => ptruthy v | None => true end.
Proof.
  unfold make_cs. destruct (dtruthy dims) eqn:E.
  - destruct (dlookup dims "percent_span"); cbn [rbind]; [|discriminate].
    destruct (pidxn a 0); cbn [rbind]; [|discriminate].
    destruct (pidxn a 1); cbn [rbind]; [|discriminate].
    destruct (dlookup dims "percent_chord"); cbn [rbind]; [|discriminate].
    match goal with |- rbind ?x _ = _ -> _ => destruct x end; cbn [rbind]; [|discriminate].
    destruct (dlookup dims "mix"); cbn [rbind]; [|discriminate].
    destruct (pdict a4); cbn [rbind]; [|discriminate].
    destruct (copy_mix mix_keys a5); cbn [rbind]; [|discriminate].
    intros H; inversion H; subst. simpl. unfold dgetd. destruct (dget dims "sealed"); auto.
  - destruct dims; [|discriminate]. intros H; inversion H; subst. reflexivity.
Qed.

Lemma make_cs_is_sealed (T : Type) (N : num_ops T) (dims : dict (pyval T)) v :
    dims <> [] -> make_cs (dset dims "is_sealed" v) = make_cs dims.
Proof.
  intros H. unfold make_cs. rewrite dset_truthy. destruct dims as [|p l]; [congruence|].
  cbn [dtruthy]. unfold dlookup. rewrite !dget_dset_other by discriminate.
  rewrite dgetd_dset_other by discriminate. reflexivity.
Qed.

Lemma seg_airfoil_spec (T : Type) end_ (af : airfoil T) s :
  seg_airfoil end_ af s = seg_set_airfoils
       (if (String.eqb end_ "both" || String.eqb end_ "root")%bool then af else sg_root_af s)
       (if (String.eqb end_ "both" || String.eqb end_ "tip")%bool then af else sg_tip_af s) s.
Proof.
  unfold seg_airfoil. destruct (String.eqb end_ "both"); simpl; auto.
  destruct (String.eqb_spec end_ "root") as [->|]; simpl; auto.
  destruct (String.eqb end_ "tip"); simpl; auto. destruct s; reflexivity.
Qed.

Lemma airfoil_call (T : Type) (N : num_ops T) id name end_ props (pl pl' : airplane T) af w :
    wing_airfoil id name end_ props pl = (Ok af, pl') ->
    nth_error (a_store pl) id = Some w -> wing_ok w ->
    make_airfoil name props = Ok af /\
    (forall id', id' <> id -> nth_error (a_store pl') id' = nth_error (a_store pl) id') /\
    a_wings pl' = a_wings pl /\
    exists w', nth_error (a_store pl') id = Some w' /\ w_name w' = w_name w /\ w_side w' = w_side w /\
      Forall2 (fun s s' =>
        s' = seg_set_airfoils
               (if (String.eqb end_ "both" || String.eqb end_ "root")%bool then af else sg_root_af s)
               (if (String.eqb end_ "both" || String.eqb end_ "tip")%bool then af else sg_tip_af s) s)
        (wing_segments w) (wing_segments w').
Proof.
  intros H Hw Hok. unfold wing_airfoil in H. rewrite Hw in H.
  destruct (make_airfoil name props) as [af'|] eqn:Ea; [|discriminate].
  inversion H; subst; clear H. split; auto. cbn [a_store a_wings set_wings].
  split; [|split; auto].
  - intros id' Hne. rewrite set_nth_nth. destruct (Nat.eqb_spec id id'); congruence.
  - exists (wing_map (seg_airfoil end_ af) w). split.
    + rewrite set_nth_nth, Nat.eqb_refl.
      assert (id < List.length (a_store pl))%nat as Hlt by (apply nth_error_Some; congruence).
      apply Nat.ltb_lt in Hlt. now rewrite Hlt.
    + unfold wing_map, wing_segments. destruct w as [n [] l r]; simpl; repeat split;
      destruct l, r; simpl; repeat constructor; apply seg_airfoil_spec.
Qed.

Lemma grid_interpolation cosine (pl : airplane R) g k sg s :
    make_grid cosine pl = Ok g -> nth_error (wingsegments pl) k = Some sg -> In s (block_of g k) ->
    let t := from_root (sg_side sg) (s_sp s) in
    let root := sg_root_af sg in let tip := sg_tip_af sg in
    let lin (f : airfoil R -> R) := between (f root) (f tip) t in
    0 < t < 1 /\
    tm (s_cla s) = lin (@af_CL_alpha R) /\ tm (s_al0 s) = lin (@af_alpha_L0 R) /\
    tm (s_cma s) = lin (@af_Cm_alpha R) /\ tm (s_cml0 s) = lin (@af_Cm_L0 R) /\
    tm (s_cd0 s) = lin (@af_CD_0 R) /\ tm (s_cd1 s) = lin (@af_CD_L R) /\
    tm (s_cd2 s) = lin (@af_CD_L2 R) /\ tm (s_clmax s) = lin (@af_CL_max R) /\
    s_c s = between (sg_root_chord sg) (sg_tip_chord sg) t /\
    s_washout s = t * sg_washout sg.
Proof.
  intros Hg Hk Hin. destruct (block_section _ _ _ _ _ _ Hg Hk Hin) as (L & R' & i & Hi & -> & _ & _ & Hne).
  cbn [set_ic2 s_sp s_cla s_al0 s_cma s_cml0 s_cd0 s_cd1 s_cd2 s_clmax s_c s_washout].
  destruct (ms_coef cosine sg L R' i) as (-> & -> & -> & -> & -> & -> & -> & ->).
  rewrite ms_sp, ms_c, ms_washout. unfold af_l, af_r, chord_l, chord_r, wash_at.
  pose proof (sp_order cosine (sg_num sg) i Hi) as (A & B & C & D).
  set (x := sp_cp cosine (sg_num sg) i) in *.
  unfold from_root, between, interp_tri, interp. cbn [tm].
  destruct (sg_side sg); rnum; repeat split; try lra; ring.
Qed.

Lemma between_bounds (root tip t : R) : 0 < t < 1 ->
    Rmin root tip <= between root tip t <= Rmax root tip /\ between root root t = root.
Proof.
  intros Ht. unfold between. split; [|ring].
  unfold Rmin, Rmax. destruct (Rle_dec root tip); split; nra.
Qed.

Lemma airfoil_errors (T : Type) (N : num_ops T) name (props : dict (pyval T)) :
    (props = [] -> make_airfoil name props
                   = Ok (MkAirfoil name VNone (ndec (-369) 4) (ndec 62832 4) (ndec 14 1)
                           (ndec (-527) 4) (ndec (-8) 2) (ndec 55 4) (ndec (-45) 4) (ndec 1 2))) /\
    (props <> [] ->
     (forall k v, In k airfoil_keys -> dget props k = Some v -> exists x, pnum v = Ok x) ->
     (make_airfoil name props = Err KeyError <-> exists k, In k airfoil_keys /\ dget props k = None)).
Proof.
  split; [intros ->; reflexivity|]. intros Hne Hnum.
  assert (Hg : forall k, In k airfoil_keys ->
             (dget props k = None /\ pgetn (VDict props) k = Err KeyError) \/
             (dget props k <> None /\ exists x, pgetn (VDict props) k = Ok x)).
  { intros k Hk. unfold pgetn, pget, dlookup. destruct (dget props k) as [v|] eqn:E.
    - right. split; [discriminate|]. destruct (Hnum k v Hk E) as [x Hx]. exists x. simpl. exact Hx.
    - left. auto. }
  assert (Ht : dtruthy props = true) by (destruct props; [congruence|reflexivity]).
  unfold make_airfoil. rewrite Ht.
  assert (Hall : forall k, In k airfoil_keys -> (exists x, pgetn (VDict props) k = Ok x) \/
                 (exists k, In k airfoil_keys /\ dget props k = None) /\ pgetn (VDict props) k = Err KeyError).
  { intros k Hk. destruct (Hg k Hk) as [[A B]|[A B]]; [right|left]; eauto. }
  split.
  - intros H.
    destruct (Hall "alpha_L0"%string) as [[x1 E1]|[? _]]; [simpl; auto 10| |assumption]; rewrite E1 in H; cbn [rbind] in H.
    destruct (Hall "CL_alpha"%string) as [[x2 E2]|[? _]]; [simpl; auto 10| |assumption]; rewrite E2 in H; cbn [rbind] in H.
    destruct (Hall "CL_max"%string) as [[x3 E3]|[? _]]; [simpl; auto 10| |assumption]; rewrite E3 in H; cbn [rbind] in H.
    destruct (Hall "Cm_L0"%string) as [[x4 E4]|[? _]]; [simpl; auto 10| |assumption]; rewrite E4 in H; cbn [rbind] in H.
    destruct (Hall "Cm_alpha"%string) as [[x5 E5]|[? _]]; [simpl; auto 10| |assumption]; rewrite E5 in H; cbn [rbind] in H.
    destruct (Hall "CD0"%string) as [[x6 E6]|[? _]]; [simpl; auto 10| |assumption]; rewrite E6 in H; cbn [rbind] in H.
    destruct (Hall "CD0_L"%string) as [[x7 E7]|[? _]]; [simpl; auto 10| |assumption]; rewrite E7 in H; cbn [rbind] in H.
    destruct (Hall "CD0_L2"%string) as [[x8 E8]|[? _]]; [simpl; auto 10| |assumption]; rewrite E8 in H; cbn [rbind] in H.
    discriminate.
  - intros (k & Hk & Hnone).
    assert (Hbad : pgetn (VDict props) k = Err KeyError).
    { destruct (Hg k Hk) as [[_ B]|[A _]]; [exact B|contradiction]. }
    assert (Hok : forall k', In k' airfoil_keys ->
              pgetn (VDict props) k' = Err KeyError \/ exists x, pgetn (VDict props) k' = Ok x).
    { intros k' Hk'. destruct (Hg k' Hk') as [[_ B]|[_ B]]; auto. }
    destruct (Hok "alpha_L0"%string) as [E1|[x1 E1]]; [simpl; auto 10|rewrite E1; reflexivity|]; rewrite E1; cbn [rbind].
    destruct (Hok "CL_alpha"%string) as [E2|[x2 E2]]; [simpl; auto 10|rewrite E2; reflexivity|]; rewrite E2; cbn [rbind].
    destruct (Hok "CL_max"%string) as [E3|[x3 E3]]; [simpl; auto 10|rewrite E3; reflexivity|]; rewrite E3; cbn [rbind].
    destruct (Hok "Cm_L0"%string) as [E4|[x4 E4]]; [simpl; auto 10|rewrite E4; reflexivity|]; rewrite E4; cbn [rbind].
    destruct (Hok "Cm_alpha"%string) as [E5|[x5 E5]]; [simpl; auto 10|rewrite E5; reflexivity|]; rewrite E5; cbn [rbind].
    destruct (Hok "CD0"%string) as [E6|[x6 E6]]; [simpl; auto 10|rewrite E6; reflexivity|]; rewrite E6; cbn [rbind].
    destruct (Hok "CD0_L"%string) as [E7|[x7 E7]]; [simpl; auto 10|rewrite E7; reflexivity|]; rewrite E7; cbn [rbind].
    destruct (Hok "CD0_L2"%string) as [E8|[x8 E8]]; [simpl; auto 10|rewrite E8; reflexivity|]; rewrite E8; cbn [rbind].
    exfalso. simpl in Hk. repeat (destruct Hk as [<-|Hk]; [congruence|]). destruct Hk.
Qed.

(** The middle section of the right main wing of the demo airplane carries the
    control surface. *)
Lemma demo_covered : exists g s sg,
  make_grid false (demo (T := R)) = Ok g /\ nth_error (wingsegments demo) 1 = Some sg /\
  In s (block_of g 1) /\ covered (sg_control sg) (from_root (sg_side sg) (s_sp s)) /\
  sg_root_af sg <> sg_tip_af sg.
Proof.
  destruct (demo_grid false) as [g Hg]. exists g. rewrite demo_eq in *.
  assert (Hk : exists sg, nth_error (wingsegments (demo_val (T := R))) 1 = Some sg /\ sg_side sg = SRight /\
     sg_num sg = 3%nat /\ cs_span_root (sg_control sg) = ndec 4 1 /\ cs_span_tip (sg_control sg) = ndec 9 1 /\
     af_name (sg_root_af sg) = "root_section"%string /\ af_name (sg_tip_af sg) = "NACA2412"%string).
  { eexists. split; [reflexivity|]. repeat split. }
  destruct Hk as (sg & Hk & Hs & Hn & H0 & H1 & Ha & Hb).
  destruct (block_of_spec _ _ _ Hg Hk) as (b & Hblk & Eb).
  destruct (segment_block_inv _ _ _ Hblk) as (_ & L & R' & _ & _ & _ & ->).
  exists (set_ic2 (make_section false sg L R' 1)), sg. split; [exact Hg|]. split; [exact Hk|]. split; [|split].
  - rewrite Eb, map_map. apply in_map_iff. exists 1%nat. split; auto. apply in_seq. lia.
  - cbn [set_ic2 s_sp]. rewrite ms_sp, Hs, Hn. unfold covered, from_root. rewrite H0, H1.
    unfold sp_cp, spacing, linear_spacing. rnum. unfold Rdec. simpl. lra.
  - intros E. rewrite E in Ha. rewrite Ha in Hb. discriminate.
Qed.
