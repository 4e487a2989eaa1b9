(** The distributions (C71). *)
From Coq Require Import Reals ZArith String Ascii Bool Arith Lia Lra List.
From Verif Require Import Base Num RVec Geometry Api Grid LLModel PropModel Spec_Grid Spec_Geom Spec_LL Spec_Prop MU Spec_MU Spec_Dist
  LL_state LL_R LL_solve LL_props LL_thm LL_thm2 LL_thm3 Prop_state Prop_thm2 Prop_thm4 Prop_thm8 Prop_thm10 MU_thm MU_thm3 MU_thm13 MU_thm15 MU_thm16.
Import ListNotations.
Local Open Scope string_scope.

(** *** Names *)
Lemma substring_prefix n : forall s, exists rest, s = substring 0 n s ++ rest /\ String.length (substring 0 n s) <= n /\
  (rest <> "" -> String.length (substring 0 n s) = n).
Proof.
  induction n as [|n IH]; intros [|c s].
  - exists "". cbn. auto.
  - exists (String c s). cbn. auto.
  - exists "". cbn. split; [reflexivity|]. split; [lia|]. congruence.
  - destruct (IH s) as (rest & A & B & C). exists rest. cbn [substring append String.length]. split; [f_equal; exact A|].
    split; [lia|]. intros H. rewrite (C H). reflexivity.
Qed.
Lemma cut18_cut s : cut s (cut18 s).
Proof. exact (substring_prefix 18 s). Qed.
Lemma append_length s t : String.length (s ++ t) = String.length s + String.length t.
Proof. induction s; cbn; congruence. Qed.
Lemma substring_all : forall t, substring 0 (String.length t) t = t.
Proof. induction t as [|c t IH]; cbn; [reflexivity|]. now rewrite IH. Qed.
Lemma substring_tail : forall s t, substring (String.length s) (String.length t) (s ++ t) = t.
Proof. induction s as [|c s IH]; intros t; cbn [String.length append substring]; [apply substring_all|apply IH]. Qed.
Lemma substring_skip : forall n s, n <= String.length s -> exists p, s = p ++ substring n (String.length s - n) s /\ String.length p = n.
Proof.
  induction n as [|n IH]; intros s H.
  - exists "". rewrite Nat.sub_0_r, substring_all. auto.
  - destruct s as [|c s]; [cbn in H; lia|]. destruct (IH s) as (p & A & B); [cbn in H; lia|].
    exists (String c p). cbn [append String.length Nat.sub substring]. rewrite <- A, B. auto.
Qed.
Lemma ends_json_name f : ends_json f = true <-> json_name f.
Proof.
  unfold ends_json, json_name. rewrite String.eqb_eq. split.
  - intros H. destruct (le_lt_dec 4 (String.length f)) as [L|L].
    + destruct (substring_skip (String.length f - 4) f ltac:(lia)) as (p & A & B).
      replace (String.length f - (String.length f - 4)) with 4 in A by lia. rewrite H in A. eauto.
    + exfalso. replace (String.length f - 4) with 0 in H by lia.
      destruct (substring_prefix 4 f) as (rest & A & _). rewrite H in A. rewrite A, append_length in L. cbn in L. lia.
  - intros (stem & ->). rewrite append_length. cbn [String.length]. rewrite Nat.add_sub.
    change 4 with (String.length "json"). apply substring_tail.
Qed.

Section Any.
  Context {T : Type} {N : num_ops T}.
  Variable E : menv T.
  Variable X : machup T.
  Variable ps : option (dict (pval T)).
  Notation W := (world T (mstate T)).

  Lemma printed_sections rows : Forall2 printed_section rows (map (@file_row T) rows).
  Proof. induction rows; cbn; constructor; auto. eexists. split; [apply cut18_cut|reflexivity]. Qed.
  Lemma printed_nodes rows : Forall2 printed_node rows (map (@file_blade T) rows).
  Proof. induction rows; cbn; constructor; auto. eexists. split; [apply cut18_cut|reflexivity]. Qed.

  (** the solve inside is MachUp.solve without a file name *)
  Lemma do_solve_mu (w : W) : do_solve (host_of E X ps) w = mu_solve E X ps None w.
  Proof.
    unfold do_solve, mu_solve, aero_given. destruct (w_aero w) as [a|] eqn:Ea.
    - unfold opt_truthy. destruct (aero_truthy a) eqn:Et.
      + unfold raw_solve. rewrite Ea. cbn [host_of h_solve]. destruct (solve_parts E X ps a (w_ctl w) (w_model w)) as [[r a'] s'].
        destruct r as [[[wing prop] tot]|e]; reflexivity.
      + unfold sbind, do_solve, aero_given, opt_truthy. rewrite Ea, Et. cbn [named].
        destruct (with_aero default_aero (raw_solve (host_of E X ps)) w) as [[?|?] ?]; reflexivity.
    - cbn [opt_truthy]. unfold sbind, do_solve, aero_given. rewrite Ea. cbn [opt_truthy named].
      destruct (with_aero default_aero (raw_solve (host_of E X ps)) w) as [[?|?] ?]; reflexivity.
  Qed.

  Definition wing_table (s : mstate T) : res (list (wing_row T)) :=
    match mm_grid X, mm_refs X with Some g, Some r => wing_rows g r (m_ll s) | _, _ => Ok [] end.
  Definition blade_table (s : mstate T) : list (blade_row (T := T)) := prop_distributions (mm_props X) (m_ps s).
  Definition swept (s : mstate T) : mstate T :=
    match mm_props X with
    | [] => s
    | gs => MkM (m_ll s) (map2 (fun g s => find_Vi (pg_stations g) s) gs (m_ps s))
    end.
  Definition file_after (k : nat) (f : string) (files : dict (list (content T))) wings blades : dict (list (content T)) :=
    let files := match mm_grid X with Some _ => dset files f [F_wings (map (@file_row T) wings)] | None => files end in
    match mm_props X with
    | [] => if ends_json f then dset files f [F_wrapped (file_of files f)] else files
    | _ => if ends_json f then
             dset files f [F_wrapped (file_of files f ++ [F_blades (map (@file_blade T) (firstn k blades))])%list;
                           F_blades (map (@file_blade T) (skipn k blades))]
           else dset files f (file_of files f ++ [F_blades (map (@file_blade T) blades)])%list
    end.

  (** *** distributions in one piece *)
  Lemma distributions_run k f (w : W) :
    distributions E X ps k f w =
    let v := mu_solve E X ps None w in
    match fst v with
    | Err e => (Err e, snd v)
    | Ok _ =>
        match wing_table (w_model (snd v)) with
        | Err e => (Err e, snd v)
        | Ok wings =>
            let blades := blade_table (w_model (snd v)) in
            (Ok (wings, blades),
             MkW (w_aero (snd v)) (w_ctl (snd v)) (swept (w_model (snd v)))
                 (match named f with None => w_files (snd v) | Some n => file_after k n (w_files (snd v)) wings blades end)
                 (w_log (snd v)))
        end
    end.
  Proof.
    unfold distributions. unfold sbind at 1. rewrite do_solve_mu. cbv zeta.
    destruct (mu_solve E X ps None w) as [[t|e] v]; cbn [fst snd]; [|reflexivity].
    unfold sbind at 1. unfold sget at 1. unfold wing_table, blade_table, swept, file_after.
    assert (G : forall wings (k0 : list (wing_row T) -> st W (list (wing_row T) * list (blade_row (T := T)))) ,
      (sbind (slift wings) k0) v = match wings with Ok x => k0 x v | Err e => (Err e, v) end).
    { intros wings k0. unfold sbind, slift. destruct wings; reflexivity. }
    destruct v as [va vc vm vf vl].
    destruct (mm_grid X) as [g|] eqn:Eg.
    - destruct (mm_refs X) as [r|] eqn:Er.
      + rewrite G. destruct (wing_rows g r _) as [wings|e]; [|reflexivity].
        destruct (mm_props X) as [|p l] eqn:Ep; unfold sbind; cbn [w_model w_aero w_ctl w_files w_log].
        * destruct (named f) as [n|]; [|reflexivity]. unfold smod, sret. cbn [put_file w_files w_aero w_ctl w_model w_log].
          destruct (ends_json n); reflexivity.
        * destruct (named f) as [n|]; [|reflexivity]. unfold smod, sret. cbn [put_file w_files w_aero w_ctl w_model w_log].
          destruct (ends_json n); reflexivity.
      + unfold sbind at 1. unfold sret at 1.
        destruct (mm_props X) as [|p l] eqn:Ep; unfold sbind; cbn [w_model w_aero w_ctl w_files w_log].
        * destruct (named f) as [n|]; [|reflexivity]. unfold smod, sret. cbn [put_file w_files w_aero w_ctl w_model w_log].
          destruct (ends_json n); reflexivity.
        * destruct (named f) as [n|]; [|reflexivity]. unfold smod, sret. cbn [put_file w_files w_aero w_ctl w_model w_log].
          destruct (ends_json n); reflexivity.
    - unfold sbind at 1. unfold sret at 1.
      destruct (mm_props X) as [|p l] eqn:Ep; unfold sbind; cbn [w_model w_aero w_ctl w_files w_log].
      + destruct (named f) as [n|]; [|reflexivity]. unfold smod, sret. cbn [put_file w_files w_aero w_ctl w_model w_log].
        destruct (ends_json n); reflexivity.
      + destruct (named f) as [n|]; [|reflexivity]. unfold smod, sret. cbn [put_file w_files w_aero w_ctl w_model w_log].
        destruct (ends_json n); reflexivity.
  Qed.
End Any.

Section Reached.
  Context {T : Type} {N : num_ops T}.
  Variable E : menv T.
  Notation W := (world T (mstate T)).

  Lemma mu_solve_parts (X : machup T) ps (w : W) : let v := mu_solve E X ps None w in
    exists a r a' s', solve_parts E X ps a (w_ctl w) (w_model w) = (r, a', s') /\ w_model (snd v) = s' /\
      fst v = (rlet q := r in Ok (snd q)) /\ w_files (snd v) = w_files w.
  Proof.
    cbv zeta. destruct (aero_given w) eqn:Eg.
    - unfold aero_given in Eg. destruct (w_aero w) as [a|] eqn:Ea; [|discriminate].
      assert (Hg : given a). { unfold opt_truthy in Eg. apply truthy_given. destruct (aero_truthy a); [reflexivity|discriminate]. }
      destruct (solve_given E X ps None w a Ea Hg) as (r & a' & s' & K1 & _ & _ & K2 & K3 & K4).
      exists a, r, a', s'. cbn [named] in K4. auto.
    - destruct (solve_omitted E X ps None w) as (r & a' & s' & K1 & _ & _ & K2 & K3 & K4).
      { intros a Ea Hg. rewrite (aero_given_some w a Ea Hg) in Eg. discriminate. }
      exists default_aero, r, a', s'. cbn [named] in K4. auto.
  Qed.
  Lemma parts_ps (X : machup T) ps a c s r a' s' : solve_parts E X ps a c s = (r, a', s') ->
    (mm_props X = [] /\ m_ps s' = m_ps s) \/
    exists q, props_solve (me_prop E) (mm_cg X) (mm_points X) (Some a) ps (mm_props X) (m_ps s) = (q, m_ps s') /\
      (forall v, r = Ok v -> exists x, q = Ok x).
  Proof.
    intros K. unfold solve_parts in K.
    assert (G : forall pr a1 s1,
       match mm_grid X with
       | None => (Ok (None, pr, add_fm (match pr with Some p => pt_fm p | None => zero_fm end) zero_fm), a1, s1)
       | Some g =>
         match ll_solve (me_lsolve E) g (mm_cg X) "linear" (Some a1) c (m_ll s1) with
            | (Err e, l) => (Err e, a1, MkM l (m_ps s1))
            | (Ok r, l) => match read_ref l r with
                | None => (Err AttributeError, a1, MkM l (m_ps s1))
                | Some w => (Ok (Some w, pr, add_fm (match pr with Some p => pt_fm p | None => zero_fm end) (r_total w)), a1, MkM l (m_ps s1))
                end end end = (r, a', s') -> m_ps s' = m_ps s1).
    { clear K. intros pr a1 s1. destruct (mm_grid X) as [g|]; [|intros K0; injection K0 as _ _ <-; reflexivity].
      destruct (ll_solve _ g _ _ _ _ _) as [[q|e] l]; [destruct (read_ref l q)|]; intros K0.
      + injection K0 as _ _ <-; reflexivity.
      + injection K0 as _ _ <-; reflexivity.
      + injection K0 as _ _ <-; reflexivity. }
    destruct (mm_props X) as [|p l].
    - left. split; [reflexivity|]. exact (G None a s K).
    - right. destruct (props_solve _ _ _ _ _ _ _) as [[[pt rows]|e] ss].
      + exists (Ok (pt, rows)). rewrite (G _ _ _ K). cbn [m_ps]. split; [reflexivity|eauto].
      + exists (Err e). injection K as <- _ <-. cbn [m_ps]. split; [reflexivity|discriminate].
  Qed.
  Lemma parts_sized (X : machup T) ps a c s r a' s' : solve_parts E X ps a c s = (r, a', s') ->
    Forall2 Prop_state.sized (mm_props X) (m_ps s) -> Forall2 Prop_state.sized (mm_props X) (m_ps s').
  Proof.
    intros K H. destruct (parts_ps _ _ _ _ _ _ _ _ K) as [[_ ->]|(q & Q & _)]; [exact H|].
    replace (m_ps s') with (snd (props_solve (me_prop E) (mm_cg X) (mm_points X) (Some a) ps (mm_props X) (m_ps s))) by now rewrite Q.
    rewrite props_solve_state. now apply run_props_sized.
  Qed.
  Lemma swept_sized : forall (gs : list (pgeom T)) ss, Forall2 Prop_state.sized gs ss ->
    Forall2 Prop_state.sized gs (map2 (fun g s => find_Vi (pg_stations g) s) gs ss).
  Proof. intros gs ss H. induction H; cbn [map2]; constructor; auto. Qed.
  Lemma reached_sized (X : machup T) s : reached E X s -> Forall2 Prop_state.sized (mm_props X) (m_ps s).
  Proof.
    induction 1 as [|s cg ps a c _ IH|w cg ps k f _ IH].
    - cbn [init_mstate m_ps]. induction (mm_props X) as [|g gs IHg]; constructor; auto.
      unfold Prop_state.sized. cbn [init_pstate p_ei]. apply repeat_length.
    - cbn [host_of h_solve]. destruct (solve_parts E (with_cg cg X) ps a c s) as [[r a'] s'] eqn:K. cbn [snd].
      exact (parts_sized (with_cg cg X) _ _ _ _ _ _ _ K IH).
    - rewrite distributions_run. cbv zeta.
      destruct (mu_solve_parts (with_cg cg X) ps w) as (a & r & a' & s' & K1 & K2 & _). cbv zeta in K2.
      pose proof (parts_sized (with_cg cg X) _ _ _ _ _ _ _ K1 IH) as Hs. cbn [with_cg mm_props] in Hs. rewrite <- K2 in Hs.
      destruct (fst (mu_solve E (with_cg cg X) ps None w)); [|exact Hs].
      destruct (wing_table (with_cg cg X) _); [|exact Hs]. cbn [snd w_model].
      unfold swept. cbn [with_cg mm_props]. destruct (mm_props X) as [|g gs] eqn:Ep; [exact Hs|].
      cbn [m_ps]. apply swept_sized. exact Hs.
  Qed.
  Lemma reached_ll (X : machup T) (g : grid T) s : mm_grid X = Some g -> reached E X s -> exists h, m_ll s = after (me_lsolve E) g h.
  Proof.
    intros Eg H.
    assert (S : forall cg ps a c s r a' s', (exists h, m_ll s = after (me_lsolve E) g h) ->
      solve_parts E (with_cg cg X) ps a c s = (r, a', s') -> exists h, m_ll s' = after (me_lsolve E) g h).
    { intros cg ps a c s0 r a' s' (h & IH) K. destruct (parts_ll E (with_cg cg X) ps g _ _ _ _ _ _ Eg K) as [(K1 & _)|(q & K1 & _)].
      + exists h. congruence.
      + exists (h ++ [MkSolveCall cg "linear" (Some a') c])%list. unfold after. rewrite fold_left_app. cbn [fold_left].
        fold (after (me_lsolve E) g h). unfold call_solve. cbn [k_cg k_stype k_aero k_ctl]. rewrite <- IH.
        cbn [with_cg mm_cg] in K1. now rewrite K1. }
    induction H as [|s cg ps a c _ IH|w cg ps k f _ IH].
    - exists []. unfold init_mstate. rewrite Eg. reflexivity.
    - cbn [host_of h_solve]. destruct (solve_parts E (with_cg cg X) ps a c s) as [[r a'] s'] eqn:K. cbn [snd].
      exact (S _ _ _ _ _ _ _ _ IH K).
    - rewrite distributions_run. cbv zeta.
      destruct (mu_solve_parts (with_cg cg X) ps w) as (a & r & a' & s' & K1 & K2 & _). cbv zeta in K2.
      pose proof (S _ _ _ _ _ _ _ _ IH K1) as Hs. rewrite <- K2 in Hs.
      destruct (fst (mu_solve E (with_cg cg X) ps None w)); [|exact Hs].
      destruct (wing_table (with_cg cg X) _); [|exact Hs]. cbn [snd w_model].
      unfold swept. destruct (mm_props (with_cg cg X)); exact Hs.
  Qed.

  (** a successful solve has a table *)
  Lemma table_exists (pl : airplane T) X ps (w : W) t : make_machup E pl = Ok X ->
    fst (mu_solve E X ps None w) = Ok t -> exists rows, wing_table X (w_model (snd (mu_solve E X ps None w))) = Ok rows.
  Proof.
    intros Em K. destruct (mu_solve_parts X ps w) as (a & r & a' & s' & K1 & K2 & K3 & _). rewrite K2. rewrite K in K3.
    unfold wing_table. destruct (mm_grid X) as [g|] eqn:Eg; [|eauto]. destruct (mm_refs X) as [r0|]; [|eauto].
    destruct r as [v|e]; [|discriminate].
    destruct (parts_ll E X ps g _ _ _ _ _ _ Eg K1) as [(_ & e & C)|(q & Q1 & Q2)]; [discriminate|].
    rewrite (Q2 v eq_refl) in Q1. destruct (ll_solve_solved _ _ _ _ _ _ _ Q1) as (_ & s1 & s2 & gam & _ & _ & _ & [_ _ _ H4 H5 H6 H7 H8]).
    unfold wing_rows, ll_distributions. rewrite H4, H5, H6, H7, H8. cbn [rbind]. eauto.
  Qed.
End Reached.

Lemma dist_rows_shape (secs : list (section R)) : forall al f cl cm cd,
  let rows := dist_rows secs al f cl cm cd in List.length rows = List.length secs -> forall long,
  Forall2 (lists_section long) secs (map (fun d => MkWRow d (nmul (d_cl d) (d_chord d) / long)%R) rows).
Proof.
  induction secs as [|s secs IH]; intros al f cl cm cd; cbv zeta.
  - destruct al, f, cl, cm, cd; constructor.
  - destruct al as [|a al], f as [|f0 f], cl as [|c cl], cm as [|m cm], cd as [|d cd]; cbn [dist_rows]; intros H long; try discriminate H.
    cbn [map]. constructor; [|apply (IH al f cl cm cd); cbn [List.length] in H; now injection H].
    unfold lists_section. cbn. repeat split.
Qed.
Lemma prop_rows_shape E cg aero ps (g : pgeom R) s q s' : run_prop E cg aero ps g s = (Ok q, s') -> Prop_state.sized g s ->
  Forall2 (lists_node (pg_name g)) (pg_stations g) (prop_rows g s').
Proof.
  intros H Hs. destruct (solved_rows _ _ _ _ _ _ _ _ H Hs) as (R1 & _ & _). cbv zeta in R1.
  apply (f_equal (@List.length R)) in R1. rewrite !map_length in R1. revert R1. unfold prop_rows.
  set (x := find_Vi (pg_stations g) s'). generalize (p_einf x) (p_ei x) (p_alpha x) (p_CL x) (p_CD x) (p_Vi x) (p_Vxi x) (p_Vti x).
  clear. induction (pg_stations g) as [|z ss IH]; intros [|x1 l1] [|x2 l2] [|x3 l3] [|x4 l4] [|x5 l5] [|x6 l6] [|x7 l7] [|x8 l8];
    cbn [blade_rows List.length]; intros H; try discriminate H; constructor.
  - unfold lists_node. cbn. repeat split.
  - apply IH. now injection H.
Qed.

Lemma blades_shape E cg aero ps : forall (gs : list (pgeom R)) ss ss' qs,
  run_props E cg aero ps gs ss = (Ok qs, ss') -> Forall2 Prop_state.sized gs ss ->
  exists tables, prop_distributions gs ss' = concat tables /\
    Forall2 (fun g rows => Forall2 (lists_node (pg_name g)) (pg_stations g) rows) gs tables.
Proof.
  induction gs as [|g gs IH]; intros ss ss' qs K H; inversion H as [|g0 s0 l0 l1 Hs Hr]; subst.
  - exists []. split; [reflexivity|constructor].
  - cbn [run_props] in K. destruct (run_prop E cg aero ps g s0) as [[q|e] s1] eqn:K1; [|discriminate].
    destruct (run_props E cg aero ps gs l1) as [[qs'|e] ss1] eqn:K2; [|discriminate]. injection K as _ <-.
    destruct (IH _ _ _ K2 Hr) as (tables & A & B). exists (prop_rows g s1 :: tables). cbn [prop_distributions concat]. rewrite A.
    split; [reflexivity|]. constructor; [|exact B]. exact (prop_rows_shape _ _ _ _ _ _ _ _ K1 Hs).
Qed.

Lemma wing_table_lemma E (pl : airplane R) X ps k f w wings blades w' :
  exact_solver (me_lsolve E) -> make_machup E pl = Ok X -> reached E X (w_model w) ->
  distributions E X ps k f w = (Ok (wings, blades), w') ->
  (a_wings pl = [] -> wings = []) /\
  (a_wings pl <> [] -> exists g r res, make_grid true pl = Ok g /\ mm_refs X = Some r /\
     Forall2 (lists_section (r_long r)) (g_sections g) wings /\
     l_results (m_ll (w_model w')) = Some res /\
     force_of (r_inviscid res) = vtotal (fun row => d_force (wr_row row)) wings).
Proof.
  intros He Em Hr K. rewrite distributions_run in K. cbv zeta in K.
  destruct (mu_solve_parts E X ps w) as (a & r & a' & s' & K1 & K2 & K3 & _). cbv zeta in K2, K3. rewrite K2, K3 in K.
  destruct r as [v|e]; [|discriminate]. cbn [rbind] in K.
  destruct (wing_table X s') as [rows|e] eqn:Et; [|discriminate]. injection K as <- <- <-. cbn [w_model].
  destruct (machup_parts E pl X Em) as (P1 & _ & _ & _).
  split.
  - intros Hw. destruct (P1 Hw) as (Q & _). unfold wing_table in Et. rewrite Q in Et. now injection Et as <-.
  - intros Hw. destruct (MU_thm12.machup_wings E pl X Em Hw) as (g & G1 & G2 & G3 & _).
    destruct (parts_ll E X ps g _ _ _ _ _ _ G2 K1) as [(_ & e & C)|(q & Q1 & Q2)]; [discriminate|].
    rewrite (Q2 v eq_refl) in Q1. destruct (reached_ll E X g _ G2 Hr) as (h & Eh). rewrite Eh in Q1.
    destruct (C21_lemma (me_lsolve E) g h (MkSolveCall (mm_cg X) "linear" (Some a') (w_ctl w)) _ _ He (grid_num true pl g G1) Q1)
      as (res & drows & R1 & R2 & R3 & R4 & _).
    exists g, (make_refs pl g), res. split; [exact G1|]. split; [exact G3|].
    unfold wing_table in Et. rewrite G2, G3 in Et. unfold wing_rows in Et. rewrite R2 in Et. cbn [rbind] in Et.
    injection Et as <-.
    assert (Hsh : Forall2 (lists_section (r_long (make_refs pl g))) (g_sections g)
       (map (fun d => MkWRow d (ndiv (nmul (d_cl d) (d_chord d)) (r_long (make_refs pl g)))) drows)).
    { unfold ll_distributions in R2. destruct (l_alphas (m_ll s')), (l_forces (m_ll s')), (l_cl (m_ll s')), (l_cm (m_ll s')), (l_cd (m_ll s')); try discriminate.
      injection R2 as <-. apply (dist_rows_shape (g_sections g)). exact R3. }
    split; [exact Hsh|]. split.
    + unfold swept. destruct (mm_props X); exact R1.
    + rewrite R4. rewrite !vtotal_vsum, map_map. reflexivity.
Qed.
Lemma list_eq_nil {A} (l : list A) : l = [] \/ l <> [].
Proof. destruct l; [now left|now right]. Qed.
Lemma blade_table_lemma E (pl : airplane R) X ps k f w wings blades w' :
  make_machup E pl = Ok X -> reached E X (w_model w) -> distributions E X ps k f w = (Ok (wings, blades), w') ->
  exists gs tables, Forall2 (fun p g => pg_name g = pr_name p /\ exists u wp, get_units pl = Ok u /\ make_pgeom (me_prop E) u wp p = Ok g) (map snd (a_props pl)) gs /\
    blades = concat tables /\
    Forall2 (fun g rows => Forall2 (lists_node (pg_name g)) (pg_stations g) rows) gs tables.
Proof.
  intros Em Hr K. rewrite distributions_run in K. cbv zeta in K.
  destruct (mu_solve_parts E X ps w) as (a & r & a' & s' & K1 & K2 & K3 & _). cbv zeta in K2, K3. rewrite K2, K3 in K.
  destruct r as [v|e]; [|discriminate]. cbn [rbind] in K.
  destruct (wing_table X s') as [rows|e] eqn:Et; [|discriminate]. injection K as <- <- <-.
  exists (mm_props X). destruct (machup_parts E pl X Em) as (_ & _ & P3 & P4).
  assert (Hm : Forall2 (fun p g => pg_name g = pr_name p /\ exists u wp, get_units pl = Ok u /\ make_pgeom (me_prop E) u wp p = Ok g) (map snd (a_props pl)) (mm_props X)).
  { destruct (list_eq_nil (a_props pl)) as [Ep|Ep].
    - rewrite (P3 Ep), Ep. constructor.
    - destruct (P4 Ep) as (_ & pts & M & _). unfold make_props in M.
      apply rmap_f2 in M. clear - M. revert M. generalize (map snd (a_props pl)) (mm_props X). intros m m' M.
      induction M as [|x y n n' H M IH]; constructor; [|exact IH].
      unfold rbind in H. destruct (get_units pl) as [u|] eqn:Eu; [|discriminate]. split; [apply (make_pgeom_data _ _ _ _ _ H)|exists u, pts; auto]. }
  pose proof (reached_sized E X _ Hr) as Hs. unfold blade_table.
  destruct (parts_ps E X _ _ _ _ _ _ _ K1) as [[Q1 _]|(q & Q1 & Q2)].
  - exists []. split; [exact Hm|]. rewrite Q1. split; [reflexivity|constructor].
  - destruct (Q2 v eq_refl) as (x & ->). apply props_solve_calc, calc_forces_run in Q1. destruct Q1 as (qs & a0 & Q1 & _).
    destruct (blades_shape _ _ _ _ _ _ _ _ Q1 Hs) as (tables & B1 & B2). exists tables. auto.
Qed.

Lemma f2_len {A B} (P : A -> B -> Prop) l l' : Forall2 P l l' -> List.length l = List.length l'.
Proof. induction 1; cbn; congruence. Qed.
(** *** Files *)
Section Files.
  Context {T : Type} {N : num_ops T}.
  Variable E : menv T.
  Variable ps : option (dict (pval T)).
  Lemma dset_twice {A} (d : dict A) k x y : dset (dset d k x) k y = dset d k y.
  Proof.
    induction d as [|[k' v] d IH]; cbn [dset].
    - now rewrite String.eqb_refl.
    - destruct (String.eqb k k') eqn:Ek; cbn [dset]; rewrite Ek; [reflexivity|]. now rewrite IH.
  Qed.
  Lemma file_of_set (d : dict (list (content T))) k x : file_of (dset d k x) k = x.
  Proof. unfold file_of, dgetd. now rewrite dget_dset_same. Qed.

  Lemma files_lemma (pl : airplane T) X k f (w : world T (mstate T)) wings blades w' : make_machup E pl = Ok X ->
    distributions E X ps k f w = (Ok (wings, blades), w') ->
    (named f = None -> w_files w' = w_files w) /\
    forall n, f = Some n -> n <> "" -> a_wings pl <> [] \/ a_props pl <> [] ->
      exists shown shown', Forall2 printed_section wings shown /\ Forall2 printed_node blades shown' /\
        let before := if a_wings pl then contents (w_files w) n else [F_wings shown] in
        w_files w' = dset (w_files w) n
          (if ends_json n then
             if a_props pl then [F_wrapped before]
             else [F_wrapped (before ++ [F_blades (firstn k shown')]); F_blades (skipn k shown')]%list
           else if a_props pl then before else before ++ [F_blades shown'])%list.
  Proof.
    intros Em K. rewrite distributions_run in K. cbv zeta in K.
    destruct (mu_solve_parts E X ps w) as (a & r & a' & s' & K1 & K2 & K3 & K4). cbv zeta in K2, K3, K4. rewrite K2, K3, K4 in K.
    destruct r as [v|e]; [|discriminate]. cbn [rbind] in K.
    destruct (wing_table X s') as [rows|e] eqn:Et; [|discriminate]. injection K as <- <- <-. cbn [w_files].
    split; [intros ->; reflexivity|]. intros n -> Hn Hp.
    assert (En : named (Some n) = Some n) by (destruct n; [now elim Hn|reflexivity]). rewrite En.
    exists (map (@file_row T) rows), (map (@file_blade T) (blade_table X s')).
    split; [apply printed_sections|]. split; [apply printed_nodes|]. cbv zeta. unfold file_after.
    rewrite firstn_map, skipn_map.
    destruct (machup_parts E pl X Em) as (P1 & P2 & P3 & P4).
    assert (Eg : match mm_grid X with Some _ => a_wings pl <> [] | None => a_wings pl = [] end).
    { destruct (a_wings pl) as [|x l].
      - destruct (P1 eq_refl) as (-> & _). reflexivity.
      - destruct (P2 ltac:(discriminate)) as (g & _ & -> & _). discriminate. }
    assert (Ep : match mm_props X with [] => a_props pl = [] | _ => a_props pl <> [] end).
    { destruct (a_props pl) as [|x l].
      - rewrite (P3 eq_refl). reflexivity.
      - destruct (P4 ltac:(discriminate)) as (Q & _). destruct (mm_props X); [now elim Q|discriminate]. }
    unfold contents. destruct (mm_grid X) as [g|], (mm_props X) as [|p l], (a_wings pl) as [|x lw], (a_props pl) as [|y lp];
      try (now elim Eg); try (now elim Ep); try discriminate Eg; try discriminate Ep;
      destruct (ends_json n); rewrite ?file_of_set, ?dset_twice; try reflexivity; destruct Hp as [C|C]; now elim C.
  Qed.

  Lemma like_solve (pl : airplane T) X k f (w : world T (mstate T)) : make_machup E pl = Ok X ->
    let v := mu_solve E X ps None w in let w' := snd (distributions E X ps k f w) in
    w_aero w' = w_aero (snd v) /\ w_ctl w' = w_ctl (snd v) /\ w_log w' = w_log (snd v) /\
    m_ll (w_model w') = m_ll (w_model (snd v)) /\
    match fst v with
    | Ok _ => exists wings blades, fst (distributions E X ps k f w) = Ok (wings, blades)
    | Err e => fst (distributions E X ps k f w) = Err e /\ w_files w' = w_files w
    end.
  Proof.
    intros Em. cbv zeta. rewrite distributions_run. cbv zeta. pose proof (table_exists E pl X ps w) as Ht.
    destruct (mu_solve_parts E X ps w) as (a & r & a' & s' & _ & _ & _ & K4). cbv zeta in K4.
    destruct (mu_solve E X ps None w) as [[t|e] v]; cbn [fst snd] in *.
    - destruct (Ht t Em eq_refl) as (rows & ->). cbn [fst snd w_aero w_ctl w_log w_model].
      repeat (split; [reflexivity|]). split; [unfold swept; destruct (mm_props X); reflexivity|]. eauto.
    - repeat (split; [reflexivity|]). exact K4.
  Qed.
  Lemma no_file (pl : airplane T) X k f (w : world T (mstate T)) wings blades w' : make_machup E pl = Ok X ->
    distributions E X ps k f w = (Ok (wings, blades), w') ->
    (f = None \/ f = Some "" -> w_files w' = w_files w) /\
    (forall k' f', fst (distributions E X ps k' f' w) = Ok (wings, blades)).
  Proof.
    intros Em K. split.
    - intros H. destruct (files_lemma pl X k f w wings blades w' Em K) as (A & _). apply A. destruct H as [-> | ->]; reflexivity.
    - intros k' f'. rewrite distributions_run in K |- *. cbv zeta in *. destruct (mu_solve E X ps None w) as [[t|e] v]; cbn [fst snd] in *; [|discriminate].
      destruct (wing_table X (w_model v)); [|discriminate]. injection K as <- <- _. reflexivity.
  Qed.
  Lemma json_no f : ~ json_name f -> ends_json f = false.
  Proof. intros H. destruct (ends_json f) eqn:Ef; [|reflexivity]. now apply ends_json_name in Ef. Qed.
  Lemma json_nonempty f : json_name f -> f <> "".
  Proof. intros (s & ->). destruct s; discriminate. Qed.
  Lemma text_file (pl : airplane T) X k n (w : world T (mstate T)) wings blades w' : make_machup E pl = Ok X ->
    n <> "" -> ~ json_name n -> distributions E X ps k (Some n) w = (Ok (wings, blades), w') ->
    exists shown shown', Forall2 printed_section wings shown /\ Forall2 printed_node blades shown' /\
      (a_wings pl <> [] -> a_props pl = [] -> w_files w' = dset (w_files w) n [F_wings shown]) /\
      (a_wings pl <> [] -> a_props pl <> [] -> w_files w' = dset (w_files w) n [F_wings shown; F_blades shown']) /\
      (a_wings pl = [] -> a_props pl <> [] ->
         w_files w' = dset (w_files w) n (contents (w_files w) n ++ [F_blades shown'])%list).
  Proof.
    intros Em Hn Hj K. destruct (files_lemma pl X k _ w wings blades w' Em K) as (_ & A).
    destruct (a_wings pl) as [|x l] eqn:Ew, (a_props pl) as [|y q] eqn:Ep.
    - exists (map (@file_row T) wings), (map (@file_blade T) blades). split; [apply printed_sections|]. split; [apply printed_nodes|].
      split; [|split]; intros; congruence.
    - destruct (A n eq_refl Hn) as (s1 & s2 & B1 & B2 & B3); [right; discriminate|]. rewrite (json_no n Hj) in B3.
      exists s1, s2. split; [exact B1|]. split; [exact B2|]. split; [congruence|]. split; [congruence|]. intros _ _. exact B3.
    - destruct (A n eq_refl Hn) as (s1 & s2 & B1 & B2 & B3); [left; discriminate|]. rewrite (json_no n Hj) in B3.
      exists s1, s2. split; [exact B1|]. split; [exact B2|]. split; [intros _ _; exact B3|]. split; congruence.
    - destruct (A n eq_refl Hn) as (s1 & s2 & B1 & B2 & B3); [left; discriminate|]. rewrite (json_no n Hj) in B3.
      exists s1, s2. split; [exact B1|]. split; [exact B2|]. split; [congruence|]. split; [intros _ _; exact B3|congruence].
  Qed.
  Lemma json_file_wings (pl : airplane T) X k n (w : world T (mstate T)) wings blades w' : make_machup E pl = Ok X ->
    json_name n -> a_wings pl <> [] -> a_props pl = [] -> distributions E X ps k (Some n) w = (Ok (wings, blades), w') ->
    exists shown, Forall2 printed_section wings shown /\ w_files w' = dset (w_files w) n [F_wrapped [F_wings shown]].
  Proof.
    intros Em Hj Hw Hp K. destruct (files_lemma pl X k _ w wings blades w' Em K) as (_ & A).
    destruct (A n eq_refl (json_nonempty n Hj) (or_introl Hw)) as (s1 & s2 & B1 & _ & B3). apply ends_json_name in Hj. rewrite Hj, Hp in B3.
    exists s1. split; [exact B1|]. destruct (a_wings pl); [now elim Hw|]. exact B3.
  Qed.
  Lemma json_file_props (pl : airplane T) X k n (w : world T (mstate T)) wings blades w' : make_machup E pl = Ok X ->
    json_name n -> a_props pl <> [] -> distributions E X ps k (Some n) w = (Ok (wings, blades), w') ->
    (k < List.length blades)%nat ->
    exists shown shown', Forall2 printed_section wings shown /\ Forall2 printed_node blades shown' /\
      skipn k shown' <> [] /\
      (a_wings pl <> [] -> w_files w' =
         dset (w_files w) n [F_wrapped [F_wings shown; F_blades (firstn k shown')]; F_blades (skipn k shown')]) /\
      (a_wings pl = [] -> w_files w' =
         dset (w_files w) n [F_wrapped (contents (w_files w) n ++ [F_blades (firstn k shown')])%list; F_blades (skipn k shown')]) /\
      forall q, contents (w_files w') n <> [F_wrapped q].
  Proof.
    intros Em Hj Hp K Hk. destruct (files_lemma pl X k _ w wings blades w' Em K) as (_ & A).
    destruct (A n eq_refl (json_nonempty n Hj) (or_intror Hp)) as (s1 & s2 & B1 & B2 & B3). apply ends_json_name in Hj. rewrite Hj in B3.
    destruct (a_props pl) as [|y l]; [now elim Hp|]. cbv zeta in B3.
    exists s1, s2. split; [exact B1|]. split; [exact B2|]. split.
    { intros C. apply (f_equal (@List.length _)) in C. rewrite skipn_length in C. cbn [List.length] in C.
      pose proof (f2_len _ _ _ B2). lia. }
    destruct (a_wings pl) as [|z v].
    - split; [congruence|]. split; [intros _; exact B3|]. intros q. rewrite B3. unfold contents. rewrite dget_dset_same. discriminate.
    - split; [intros _; exact B3|]. split; [congruence|]. intros q. rewrite B3. unfold contents. rewrite dget_dset_same. discriminate.
  Qed.
End Files.

