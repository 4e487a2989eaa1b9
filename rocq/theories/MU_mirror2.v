(** Mirrored flight of airplanes with propellers (C79). *)
From Coq Require Import Reals ZArith String Bool Arith Lia Lra List.
From Verif Require Import Base Num RVec Geometry Api Grid LLModel PropModel Spec_Grid Spec_Geom Spec_LL LL_state LL_R LL_solve
  Grid_facts Grid_thm Mirror LL_props LL_thm LL_thm2 LL_sym LL_thm2 Spec_Mirror LL_mirror LL_mirror2 LL_mirror3 MU Spec_MirrorProp Prop_mirror.
Import ListNotations.
Local Open Scope string_scope.
Local Open Scope R_scope.

(** *** Same wings, same grid *)
Section Grid.
  Variables pl pl' : airplane R.
  Hypothesis H : a_wings pl' = a_wings pl /\ a_store pl' = a_store pl /\ a_position pl' = a_position pl.
  Lemma airplane_position_same : airplane_position pl' = airplane_position pl.
  Proof. unfold airplane_position. destruct H as (_ & _ & ->). reflexivity. Qed.
  Lemma seg_position_same fuel : forall s at_, seg_position fuel pl' s at_ = seg_position fuel pl s at_.
  Proof.
    induction fuel as [|fuel IH]; intros s at_; [reflexivity|]. unfold seg_position; fold (@seg_position R _).
    rewrite airplane_position_same. destruct H as (_ & E & _). rewrite E.
    destruct (sg_parent s) as [| |id]; try reflexivity. destruct (nth_error (a_store pl) id) as [w|]; [|reflexivity].
    destruct (w_left w), (w_right w); rewrite ?IH; reflexivity.
  Qed.
  Lemma segment_block_same cosine s : segment_block cosine pl' s = segment_block cosine pl s.
  Proof.
    unfold segment_block. rewrite !seg_position_same. unfold position_fuel. destruct H as (_ & E & _).
    rewrite E. reflexivity.
  Qed.
  Lemma fill_same cosine segs : forall i sl arr x, fill cosine pl' segs i sl arr x = fill cosine pl segs i sl arr x.
  Proof.
    induction segs as [|s segs IH]; intros; cbn [fill]; [reflexivity|]. rewrite segment_block_same.
    destruct (segment_block cosine pl s) as [b|]; [|reflexivity]. cbn [rbind].
    destruct (write_block arr i b) as [arr'|]; [|reflexivity]. cbn [rbind]. apply IH.
  Qed.
  Lemma lookup_same : lookup_wings pl' = lookup_wings pl.
  Proof. unfold lookup_wings. destruct H as (E & E' & _). rewrite E, E'. reflexivity. Qed.
  Lemma wingsegments_same : wingsegments pl' = wingsegments pl.
  Proof. unfold wingsegments. now rewrite lookup_same. Qed.
  Lemma make_grid_same cosine : make_grid cosine pl' = make_grid cosine pl.
  Proof. unfold make_grid, num_sections. rewrite wingsegments_same, lookup_same, fill_same. reflexivity. Qed.
End Grid.

(** *** The two objects *)
Record mmir (E : menv R) (X X' : machup R) : Prop := {
  mx_grid : mm_grid X' = mm_grid X;
  mx_points : mm_points X = option_map (fun g => List.length (map (@s_r R) (g_sections g))) (mm_grid X) /\ mm_points X' = mm_points X;
  mx_cg : mm_cg X' = mirror (mm_cg X);
  mx_props : Forall2 (gmir (me_prop E) (option_map (fun g => map (@s_r R) (g_sections g)) (mm_grid X))) (mm_props X) (mm_props X')
}.
Lemma make_machup_mirror (Q : string -> string -> Prop) E pl pl' : (forall n n', Q n n' -> pe_mem (me_prop E) n' = pe_mem (me_prop E) n) -> maq Q pl pl' ->
  res_rel (fun X X' => (mmir E X X' /\ Forall2 (fun g g' => Q (pg_name g) (pg_name g')) (mm_props X) (mm_props X')) /\ forall g, mm_grid X = Some g -> make_grid true pl = Ok g) (make_machup E pl) (make_machup E pl').
Proof.
  intros Hmem H. unfold make_machup. rewrite (make_grid_same pl pl' (mq_wings _ _ _ H) true). pose proof (mq_wings _ _ _ H) as (Ew & _ & _). rewrite Ew.
  assert (K : forall og, (forall g, og = Some g -> make_grid true pl = Ok g) ->
    let pts := option_map (fun g => map (@s_r R) (g_sections g)) og in
    res_rel (fun X X' => (mmir E X X' /\ Forall2 (fun g g' => Q (pg_name g) (pg_name g')) (mm_props X) (mm_props X')) /\ forall g, mm_grid X = Some g -> make_grid true pl = Ok g)
      (rlet props := match a_props pl with [] => Ok [] | _ => make_props (me_prop E) pl pts end in
       Ok (MkMU og (option_map (make_refs pl) og) props (option_map (@List.length _) pts) (a_cg pl)))
      (rlet props := match a_props pl' with [] => Ok [] | _ => make_props (me_prop E) pl' pts end in
       Ok (MkMU og (option_map (make_refs pl') og) props (option_map (@List.length _) pts) (a_cg pl')))).
  { intros og Hg pts. pose proof (make_props_mirror Q (me_prop E) pl pl' pts Hmem H) as M. pose proof (mq_props _ _ _ H) as P.
    assert (M' : res_rel (Forall2 (fun g g' => gmir (me_prop E) pts g g' /\ Q (pg_name g) (pg_name g'))) (match a_props pl with [] => Ok [] | _ => make_props (me_prop E) pl pts end)
                         (match a_props pl' with [] => Ok [] | _ => make_props (me_prop E) pl' pts end)).
    { destruct P; [constructor|exact M]. }
    clear M P. destruct (match a_props pl with [] => _ | _ => _ end) as [gs|e], (match a_props pl' with [] => _ | _ => _ end) as [gs'|e'];
      cbn [res_rel rbind] in *; try contradiction; auto.
    split; [|exact Hg]. split; cbn [mm_props].
    2:{ clear - M'. induction M' as [|? ? ? ? []]; constructor; auto. }
    split; cbn [mm_grid mm_props mm_points mm_cg]; auto.
    - split; [|reflexivity]. unfold pts. destruct og; reflexivity.
    - apply (mq_cg _ _ _ H).
    - clear - M'. induction M' as [|? ? ? ? []]; constructor; auto. }
  destruct (a_wings pl); [apply (K None); discriminate|].
  destruct (make_grid true pl) as [g|e]; [|reflexivity]. apply (K (Some g)). congruence.
Qed.

(** *** Slipstreams on paired sections *)
Definition rows_pair (n : nat) (sg : nat -> nat) (rows rows' : list (R * vec3 R)) : Prop :=
  forall i, (i < n)%nat -> nth_error rows' (sg i) = option_map (fun r => (fst r, mirror (snd r))) (nth_error rows i).
Section Slip.
  Variable E : penv R.
  Variables (secs : list (section R)) (sg : nat -> nat) (e : nat -> R).
  Hypothesis Hma : matched secs sg e.
  Notation n := (List.length secs).
  Lemma points_pair i : (i < n)%nat -> nth_error (map (@s_r R) secs) (sg i) = option_map mirror (nth_error (map (@s_r R) secs) i).
  Proof.
    intros Hi. pose proof (sw_lt _ _ (ma_swaps _ _ _ Hma) i Hi) as Hj. rewrite !nth_error_map.
    destruct (nth_error secs i) as [a|] eqn:Ea; [|apply nth_error_None in Ea; lia].
    destruct (nth_error secs (sg i)) as [b|] eqn:Eb; [|apply nth_error_None in Eb; lia].
    cbn [option_map]. f_equal. apply (sec_pair_r _ _ _ (ma_pair _ _ _ Hma _ _ _ Ea Eb)).
  Qed.
  Lemma add_slipstream_pair g g' s rows rows' : gmir E (Some (map (@s_r R) secs)) g g' ->
    List.length rows = n -> List.length rows' = n -> rows_pair n sg rows rows' ->
    rows_pair n sg (add_slipstream g s rows) (add_slipstream g' (pmir s) rows') /\
    List.length (add_slipstream g s rows) = n /\ List.length (add_slipstream g' (pmir s) rows') = n.
  Proof.
    intros G L L' P. unfold add_slipstream. rewrite (gm_wing _ _ _ _ G), (gm_wing' _ _ _ _ G). cbn [option_map].
    split; [|split; rewrite Base.map2_length; rewrite ?map_length; congruence].
    intros i Hi. rewrite !map2_nth, (P i Hi), !nth_error_map with (f := wing_point _ _ _), (points_pair i Hi).
    destruct (nth_error rows i) as [[r v]|]; [|reflexivity]. destruct (nth_error (map (@s_r R) secs) i) as [p|]; [|reflexivity].
    cbn [option_map fst snd]. rewrite (point_velocity_mirror _ _ _ _ G), <- mirror_add. reflexivity.
  Qed.
  Lemma slipstreams_pair gs gs' : Forall2 (gmir E (Some (map (@s_r R) secs))) gs gs' -> forall ss rows rows',
    List.length rows = n -> List.length rows' = n -> rows_pair n sg rows rows' ->
    rows_pair n sg (slipstreams gs ss rows) (slipstreams gs' (map pmir ss) rows') /\
    List.length (slipstreams gs ss rows) = n /\ List.length (slipstreams gs' (map pmir ss) rows') = n.
  Proof.
    induction 1 as [|g g' gs gs' G F IH]; intros ss rows rows' L L' P; [auto|].
    destruct ss as [|s ss]; [auto|]. cbn [slipstreams map].
    destruct (add_slipstream_pair g g' s rows rows' G L L' P) as (P1 & L1 & L1'). now apply IH.
  Qed.
End Slip.

Lemma repeat_pair {A} n sg (f : A -> A) (x : A) : swaps n sg ->
  forall i, (i < n)%nat -> nth_error (repeat (f x) n) (sg i) = option_map f (nth_error (repeat x n) i).
Proof.
  intros Hs i Hi. pose proof (sw_lt _ _ Hs i Hi) as Hj. rewrite !nth_error_repeat by auto. reflexivity.
Qed.

(** *** One wing solve *)
Definition flows (n : nat) (sg : nat -> nat) (a a' : aero_state R) : Prop :=
  match base_flow n a, base_flow n a' with
  | Ok (v, u, rho), Ok (v', u', rho') => u' = mirror u /\ flow_pair n sg v v' rho rho'
  | Err e, Err e' => e' = e
  | _, _ => False
  end.
Lemma usable_base n (a : aero_state R) : an a <> [] -> usable_flowb n (Some a) = match base_flow n a with Ok _ => true | Err _ => false end.
Proof.
  intros Na. unfold usable_flowb, base_flow. destruct (als a) as [rows|].
  - unfold broadcast. destruct rows as [|r [|r' rows]]; cbn [List.length].
    + destruct n; reflexivity.
    + reflexivity.
    + destruct (Nat.eqb _ n); reflexivity.
  - unfold dmem. destruct (an a) as [|x d] eqn:E; [congruence|]. cbn [dtruthy negb orb].
    destruct (dget _ "V_mag"), (dget _ "rho"); reflexivity.
Qed.
Section Wings.
  Variables (ls : linear_solver (T := R)) (g : grid R) (sg : nat -> nat) (e : nat -> R).
  Hypothesis He : exact_solver ls.
  Hypothesis Hn : g_num g = List.length (g_sections g).
  Hypothesis Hma : matched (g_sections g) sg e.
  Notation force h := (command_of (control_in_force (g_num g) None h)).
  Definition ctl_rel (c c' : option (dict R)) : Prop :=
    match c, c' with
    | None, None => True
    | Some c, Some c' => c <> [] /\ c' <> [] /\ mirrored_controls c c'
    | _, _ => False
    end.
  Definition inv (s s' : ll_state R) : Prop :=
    exists h h', s = after ls g h /\ s' = after ls g h' /\ mirrored_controls (force h) (force h').
  Lemma wing_solve cg a a' c c' s s' : an a <> [] -> an a' <> [] -> flows (g_num g) sg a a' ->
    body_rates (an a') = vopp (mirror (body_rates (an a))) -> ctl_rel c c' -> inv s s' ->
    let o := ll_solve ls g cg "linear" (Some a) c s in
    let o' := ll_solve ls g (mirror cg) "linear" (Some a') c' s' in
    mirrored_solves g o o' /\ inv (snd o) (snd o').
  Proof.
    intros Na Na' F W C (h & h' & -> & -> & K). cbv zeta.
    set (k := MkSolveCall cg "linear" (Some a) c). set (k' := MkSolveCall (mirror cg) "linear" (Some a') c').
    change (ll_solve ls g cg "linear" (Some a) c (after ls g h)) with (call_solve ls g k (after ls g h)).
    change (ll_solve ls g (mirror cg) "linear" (Some a') c' (after ls g h')) with (call_solve ls g k' (after ls g h')).
    assert (Ga : given_aero (Some a)) by (exists a; auto). assert (Ga' : given_aero (Some a')) by (exists a'; auto).
    assert (Kn : mirrored_controls (acting g h k) (acting g h' k')).
    { unfold acting. rewrite !control_in_force_app. cbn [control_in_force k_ctl k_aero k k'].
      rewrite !usable_base by assumption. unfold flows in F.
      destruct c as [[|x c]|], c' as [[|x' c']|]; cbn [ctl_rel] in C; try contradiction; try (destruct C as (? & ? & ?); congruence); [|exact K].
      destruct (base_flow (g_num g) a) as [[[v u] rho]|e1], (base_flow (g_num g) a') as [[[v' u'] rho']|e1']; try contradiction; [|exact K].
      apply C. }
    split.
    - unfold flows in F. destruct (base_flow (g_num g) a) as [[[v u] rho]|e1] eqn:B, (base_flow (g_num g) a') as [[[v' u'] rho']|e1'] eqn:B';
        try contradiction.
      + destruct F as [-> F]. rewrite Hn in F. eapply (mirrored_call ls g h h' k k' a a' sg e v v' u rho rho'); eauto.
      + pose proof (process_aero_base g cg a (after ls g h) Hn Ga) as P. rewrite B in P.
        pose proof (process_aero_base g (mirror cg) a' (after ls g h') Hn Ga') as P'. rewrite B' in P'.
        unfold call_solve, ll_solve, sbind. cbn [k k' k_cg k_aero k_ctl k_stype]. rewrite P, P'. exact F.
    - exists (h ++ [k])%list, (h' ++ [k'])%list. rewrite !after_app. auto.
  Qed.
End Wings.

(** *** One combined solve *)
Section Solve.
  Variable E : menv R.
  Variables X X' : machup R.
  Hypothesis HX : mmir E X X'.
  Hypothesis He : exact_solver (me_lsolve E).
  Variables (sg : nat -> nat) (e : nat -> R).
  Hypothesis Hg : forall g, mm_grid X = Some g -> g_num g = List.length (g_sections g) /\ matched (g_sections g) sg e.

  Definition minv (s s' : mstate R) : Prop :=
    m_ps s' = map pmir (m_ps s) /\ forall g, mm_grid X = Some g -> inv (me_lsolve E) g (m_ll s) (m_ll s').
  Lemma flows_uniform n a a' : swaps n sg -> mirrored_flow a a' -> flows n sg a a'.
  Proof.
    intros Hs F. unfold flows, base_flow. destruct (mf_uniform F) as [-> ->]. rewrite (mf_V F), (mf_rho F), (mf_alpha F), (mf_beta F).
    destruct (dget (an a) "V_mag") as [V|]; [destruct (dget (an a) "rho") as [rho|]|]; try reflexivity.
    rewrite freestream_mirror, unit_mirror. split; [reflexivity|]. intros i Hi. split.
    - now apply (repeat_pair n sg mirror).
    - rewrite (repeat_pair n sg (fun x => x) rho Hs i Hi). destruct (nth_error _ i); reflexivity.
  Qed.
  Lemma broadcast_all {A} n (rows : list A) : List.length rows = n -> broadcast n rows = Ok rows.
  Proof.
    intros <-. unfold broadcast. destruct rows as [|x [|y rows]]; try reflexivity. now rewrite Nat.eqb_refl.
  Qed.
  Lemma flows_rows n a a' rows rows' V : dget (an a) "V_mag" = Some V ->
    mirrored_flow a a' -> List.length rows = n -> List.length rows' = n -> rows_pair n sg rows rows' ->
    flows n sg (set_local a rows) (set_local a' rows').
  Proof.
    intros HV F L L' P. unfold flows, base_flow, set_local. cbn [als an]. rewrite !broadcast_all by assumption. cbn [rbind]. cbv zeta.
    rewrite (mf_V F), HV, (mf_alpha F), (mf_beta F), freestream_mirror, unit_mirror. split; [reflexivity|].
    intros i Hi. rewrite !nth_error_map, (P i Hi). destruct (nth_error rows i) as [[r v]|]; split; reflexivity.
  Qed.

  Definition ran (r r' : res (option (ll_results R) * option (@prop_total R) * fm R)) : Prop :=
    res_rel (fun q q' => mirrored_forces (snd q) (snd q')) r r'.
  Lemma solve_parts_mirror ps a a' c c' s s' : Forall2 (settings_same ps) (mm_props X) (mm_props X') -> an a <> [] -> an a' <> [] -> mirrored_flow a a' -> ctl_rel c c' -> minv s s' ->
    let '(r, _, t) := solve_parts E X ps a c s in let '(r', _, t') := solve_parts E X' ps a' c' s' in
    ran r r' /\ minv t t'.
  Proof.
    intros HS Na Na' F C [M1 M2]. unfold solve_parts.
    assert (Hw : forall pr pr' b b' ss, res_rel (fun x y => match x, y with None, None => True | Some p, Some p' => mirrored_forces (pt_fm p) (pt_fm p') | _, _ => False end) (Ok pr) (Ok pr') ->
      an b <> [] -> an b' <> [] -> body_rates (an b') = vopp (mirror (body_rates (an b))) ->
      (forall g, mm_grid X = Some g -> flows (g_num g) sg b b') ->
      let run (X : machup R) c (pr : option (@prop_total R)) (a : aero_state R) (s : mstate R) :=
        match mm_grid X with
        | None => (Ok (None, pr, add_fm (match pr with Some p => pt_fm p | None => zero_fm end) zero_fm), a, s)
        | Some g =>
          match ll_solve (me_lsolve E) g (mm_cg X) "linear" (Some a) c (m_ll s) with
          | (Err e, l) => (Err e, a, MkM l (m_ps s))
          | (Ok r, l) =>
              match read_ref l r with
              | None => (Err AttributeError, a, MkM l (m_ps s))
              | Some w =>
                  (Ok (Some w, pr, add_fm (match pr with Some p => pt_fm p | None => zero_fm end) (r_total w)), a, MkM l (m_ps s))
              end
          end
        end in
      let '(r, _, t) := run X c pr b (MkM (m_ll s) ss) in let '(r', _, t') := run X' c' pr' b' (MkM (m_ll s') (map pmir ss)) in
      ran r r' /\ minv t t').
    { intros pr pr' b b' ss Hp Nb Nb' W Hf. cbv beta zeta. rewrite (mx_grid _ _ _ HX), (mx_cg _ _ _ HX).
      assert (Hz : mirrored_forces (match pr with Some p => pt_fm p | None => zero_fm end) (match pr' with Some p => pt_fm p | None => zero_fm end)).
      { cbn [res_rel] in Hp. destruct pr, pr'; try contradiction; auto. split; cbn; change n0 with 0; lra. }
      destruct (mm_grid X) as [g|] eqn:Eg.
      - cbn [m_ll m_ps]. destruct (Hg g eq_refl) as [Hn Hma].
        pose proof (wing_solve (me_lsolve E) g sg e He Hn Hma (mm_cg X) b b' c c' (m_ll s) (m_ll s') Nb Nb' (Hf g eq_refl) W C (M2 g eq_refl)) as Q.
        cbv zeta in Q. destruct Q as [Q I].
        destruct (ll_solve (me_lsolve E) g (mm_cg X) "linear" (Some b) c (m_ll s)) as [[r|e1] l];
          destruct (ll_solve (me_lsolve E) g (mirror (mm_cg X)) "linear" (Some b') c' (m_ll s')) as [[r'|e1'] l']; cbn [mirrored_solves] in Q; try contradiction.
        + destruct Q as (x & x' & _ & _ & R1 & R2 & R3 & _). destruct r, r'. cbn [read_ref]. rewrite R1, R2.
          split; [|split; [reflexivity|intros g0 Hg0; rewrite Eg in Hg0; injection Hg0 as <-; exact I]].
          cbn [ran res_rel snd]. apply add_pair; [exact Hz|apply (mr_total R3)].
        + split; [exact Q|]. split; [reflexivity|]. intros g0 Hg0. rewrite Eg in Hg0. injection Hg0 as <-. exact I.
      - split; [|split; [reflexivity|intros g0 Hg0; congruence]].
        cbn [ran res_rel snd]. apply add_pair; [exact Hz|]. split; cbn; change n0 with 0; lra. }
    pose proof (mx_props _ _ _ HX) as Fp.
    assert (Es : s = MkM (m_ll s) (m_ps s)) by (destruct s; reflexivity).
    assert (Es' : s' = MkM (m_ll s') (map pmir (m_ps s))) by (rewrite <- M1; destruct s'; reflexivity).
    destruct (mm_props X) as [|p gs] eqn:Ep, (mm_props X') as [|p' gs'] eqn:Ep'; [| inversion Fp | inversion Fp |].
    - rewrite Es, Es'. apply Hw; auto.
      + exact I.
      + apply rates_mirror; auto.
      + intros g Eg. destruct (Hg g Eg) as [Hn Hma]. apply flows_uniform; auto. rewrite Hn. apply (ma_swaps _ _ _ Hma).
    - destruct (mx_points _ _ _ HX) as [Pt Pt']. rewrite Pt', M1.
      pose proof (calc_forces_mirror (me_prop E) _ (mm_cg X) a a' ps _ _ (m_ps s) Na Na' F Fp HS) as [Q Qs].
      rewrite <- (mx_cg _ _ _ HX) in Q, Qs. unfold props_solve, sbind.
      destruct (calc_forces (me_prop E) (mm_cg X) (Some a) ps (p :: gs) (m_ps s)) as [[pt|e1] ss];
        destruct (calc_forces (me_prop E) (mm_cg X') (Some a') ps (p' :: gs') (map pmir (m_ps s))) as [[pt'|e1'] ss'];
        cbn [fst snd res_rel] in Q, Qs; subst ss'; try contradiction.
      2:{ split; [exact Q|]. split; [reflexivity|exact M2]. }
      destruct (mm_points X) as [m|] eqn:Em.
      2:{ assert (Eg : forall g, mm_grid X <> Some g) by (intros g Eg; rewrite Eg in Pt; discriminate).
          refine (Hw (Some pt) (Some pt') a a' ss _ Na Na' _ _); [cbn [res_rel]; apply Q|apply rates_mirror; auto|intros g Eg'; now apply Eg in Eg']. }
      assert (Eg : exists g, mm_grid X = Some g /\ m = List.length (map (@s_r R) (g_sections g))).
      { clear - Pt. destruct (mm_grid X) as [g|]; [|discriminate]. exists g. injection Pt as ->. auto. }
      destruct Eg as (g & Eg & ->). clear Pt Em.
      unfold slift. unfold velocity_field, opt_truthy. rewrite !(truthy_given) by assumption.
      rewrite (mf_V F), (mf_rho F), (unit_freestream_mirror _ _ F).
      destruct (dget (an a) "V_mag") as [V|] eqn:EV; [destruct (dget (an a) "rho") as [rho|] eqn:Er|].
      2,3: split; [reflexivity|split; [reflexivity|exact M2]].
      unfold sget, sret. destruct (Hg g Eg) as [Hn Hma]. pose proof (ma_swaps _ _ _ Hma) as Hsw.
      rewrite Eg in Fp. cbn [option_map] in Fp.
      set (f := freestream n1 (dgetd (an a) "alpha" n0) (dgetd (an a) "beta" n0)).
      rewrite <- mirror_scale. rewrite map_length.
      destruct (slipstreams_pair (me_prop E) (g_sections g) sg e Hma _ _ Fp ss
        (repeat (rho, vscale V f) (List.length (g_sections g))) (repeat (rho, mirror (vscale V f)) (List.length (g_sections g)))) as (P & L & L').
      { apply repeat_length. } { apply repeat_length. }
      { intros i Hi. apply (repeat_pair _ sg (fun r : R * vec3 R => (fst r, mirror (snd r))) (rho, vscale V f) Hsw i Hi). }
      refine (Hw (Some pt) (Some pt')
        (set_local a (slipstreams (p :: gs) ss (repeat (rho, vscale V f) (List.length (g_sections g)))))
        (set_local a' (slipstreams (p' :: gs') (map pmir ss) (repeat (rho, mirror (vscale V f)) (List.length (g_sections g))))) ss _ Na Na' _ _).
      + cbn [res_rel]. apply Q.
      + cbn [set_local an]. apply rates_mirror; auto.
      + intros g0 Hg0. rewrite Eg in Hg0. injection Hg0 as <-. rewrite Hn. eapply flows_rows; eauto.
  Qed.

  Lemma solve_all_mirror calls calls' : Forall2 mirrored_args calls calls' ->
    Forall (fun i => Forall2 (settings_same (sa_prop i)) (mm_props X) (mm_props X')) calls -> forall s s', minv s s' ->
    Forall2 mirrored_outcome (solve_all E X s calls) (solve_all E X' s' calls').
  Proof.
    induction 1 as [|i i' calls calls' Hi Hr IH]; intros HA s s' M; [constructor|]. inversion_clear HA as [|? ? HS HA']. cbn [solve_all].
    destruct Hi as [[Na Na'] Hf Hc Hp]. rewrite Hp. unfold mu_solve, opt_truthy. cbn [w_aero w_ctl w_model w_files w_log].
    rewrite !(truthy_given) by assumption.
    pose proof (solve_parts_mirror (sa_prop i) _ _ _ _ s s' HS Na Na' Hf Hc M) as Q.
    destruct (solve_parts E X (sa_prop i) (sa_aero i) (sa_ctl i) s) as [[r a1] t].
    destruct (solve_parts E X' (sa_prop i) (sa_aero i') (sa_ctl i') s') as [[r' a1'] t']. destruct Q as [Q I].
    destruct r as [[[w pr] tot]|e1], r' as [[[w' pr'] tot']|e1']; cbn [ran res_rel snd] in Q; try contradiction;
      constructor; auto; apply IH; auto.
  Qed.
End Solve.

Lemma session_mirror E pl X X' calls calls' :
  built pl -> mirror_symmetric pl -> exact_solver (me_lsolve E) ->
  mmir E X X' -> (forall g, mm_grid X = Some g -> make_grid true pl = Ok g) -> Forall2 mirrored_args calls calls' ->
  Forall (fun i => Forall2 (settings_same (sa_prop i)) (mm_props X) (mm_props X')) calls ->
  Forall2 mirrored_outcome (solve_all E X (init_mstate X) calls) (solve_all E X' (init_mstate X') calls').
Proof.
  intros Hb Hs He M Hg Hc HS.
  assert (Q : exists sg e, forall g, mm_grid X = Some g -> g_num g = List.length (g_sections g) /\ matched (g_sections g) sg e).
  { destruct (mm_grid X) as [g|] eqn:Eg; [|exists (fun i => i), (fun _ => 1); discriminate].
    specialize (Hg g eq_refl). destruct (mirror_matched true pl g Hb Hg Hs) as (sg & e & Hma).
    exists sg, e. intros g0 E0. injection E0 as <-. split; [now apply (grid_num true pl)|exact Hma]. }
  destruct Q as (sg & e & Q).
  apply (solve_all_mirror E X X' M He sg e Q _ _ Hc HS). split.
  - unfold init_mstate. cbn [m_ps]. clear - M. induction (mx_props _ _ _ M) as [|g g' gs gs' G F IH]; [reflexivity|].
    cbn [map]. rewrite (init_mirror _ _ _ _ G), IH. reflexivity.
  - intros g Eg. exists [], []. unfold init_mstate. rewrite (mx_grid _ _ _ M), Eg. cbn [m_ll].
    refine (conj eq_refl (conj eq_refl _)). cbn [control_in_force command_of]. split; unfold entry, dgetd; cbn; change n0 with 0; lra.
Qed.

Lemma C79_lemma E pl pl' calls calls' :
  built pl -> mirror_symmetric pl -> mirrored_airplane pl pl' -> exact_solver (me_lsolve E) -> Forall2 mirrored_args calls calls' ->
  match make_machup E pl, make_machup E pl' with
  | Ok X, Ok X' => Forall2 mirrored_outcome (solve_all E X (init_mstate X) calls) (solve_all E X' (init_mstate X') calls')
  | Err e, Err e' => e' = e
  | _, _ => False
  end.
Proof.
  intros Hb Hs Hm He Hc.
  assert (Hq : maq (fun n n' => n' = n) pl pl').
  { destruct Hm as [H1 H2 H3 H4 H5]. split; auto. clear - H5. induction H5 as [|x x' l l' (K1 & K2 & K3)]; constructor; auto. }
  pose proof (make_machup_mirror (fun n n' => n' = n) E pl pl' ltac:(intros n n' ->; reflexivity) Hq) as M.
  destruct (make_machup E pl) as [X|e], (make_machup E pl') as [X'|e']; cbn [res_rel] in M; auto.
  destruct M as [[M Nm] Hg]. apply (session_mirror E pl X X' calls calls' Hb Hs He M Hg Hc).
  clear - Nm. apply Forall_forall. intros i _. induction Nm as [|g g' gs gs' K]; constructor; auto. unfold settings_same. now rewrite K.
Qed.
