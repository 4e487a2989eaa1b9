(** The stall check of a MachUp object (C45) and statements about target_lift in one piece (C41). *)
From Coq Require Import Reals ZArith String Bool Arith Lia Lra List.
From Verif Require Import Base Num RVec Geometry Api Grid LLModel PropModel Spec_Grid Spec_Geom Spec_LL Spec_Prop MU Spec_MU
  LL_state LL_R LL_solve LL_props LL_thm LL_thm3 MU_thm MU_thm2 MU_thm3 MU_thm4 MU_thm5 MU_thm6 MU_thm7 MU_thm8 MU_thm9 MU_thm10
  MU_thm12 MU_thm13 MU_thm15.
Import ListNotations.
Local Open Scope string_scope.

Section Wings.
  Context {T : Type} {N : num_ops T}.
  Lemma parts_ll E X ps (g : grid T) a c s r a' s' : mm_grid X = Some g -> solve_parts E X ps a c s = (r, a', s') ->
    (m_ll s' = m_ll s /\ exists e, r = Err e) \/
    exists q, ll_solve (me_lsolve E) g (mm_cg X) "linear" (Some a') c (m_ll s) = (q, m_ll s') /\
      (forall v, r = Ok v -> q = Ok TheResultsDict).
  Proof.
    intros Eg K. unfold solve_parts in K. rewrite Eg in K.
    assert (G : forall pr a1 s1, m_ll s1 = m_ll s ->
       match ll_solve (me_lsolve E) g (mm_cg X) "linear" (Some a1) c (m_ll s1) with
            | (Ok r, l) => match read_ref l r with
                | Some w => (Ok (Some w, pr, add_fm (match pr with Some p => pt_fm p | None => zero_fm end) (r_total w)), a1, MkM l (m_ps s1))
                | None => (Err AttributeError, a1, MkM l (m_ps s1)) end
            | (Err e, l) => (Err e, a1, MkM l (m_ps s1)) end = (r, a', s') ->
       exists q, ll_solve (me_lsolve E) g (mm_cg X) "linear" (Some a') c (m_ll s) = (q, m_ll s') /\ (forall v, r = Ok v -> q = Ok TheResultsDict)).
    { intros pr a1 s1 E1. rewrite E1. destruct (ll_solve (me_lsolve E) g (mm_cg X) "linear" (Some a1) c (m_ll s)) as [[q|e] l] eqn:Es.
      - destruct (read_ref l q); intros K0; injection K0 as <- <- <-; exists (Ok q); cbn [m_ll]; split; auto; [|discriminate].
        intros. destruct q. reflexivity.
      - intros K0. injection K0 as <- <- <-. exists (Err e). cbn [m_ll]. split; auto. discriminate. }
    destruct (mm_props X) as [|p l].
    - right. now apply (G None a s).
    - destruct (props_solve _ _ _ _ _ _ _) as [[[pt rows]|e] ss].
      + right. exact (G (Some pt) (match rows with Some r1 => set_local a r1 | None => a end) (MkM (m_ll s) ss) eq_refl K).
      + left. injection K as <- _ <-. cbn. eauto.
  Qed.
  Lemma after_ll E X (g : grid T) : mm_grid X = Some g -> forall h, exists h', m_ll (mu_after E X h) = after (me_lsolve E) g h'.
  Proof.
    intros Eg h. induction h as [|k h IH] using rev_ind.
    - exists []. cbn. unfold init_mstate. rewrite Eg. reflexivity.
    - destruct IH as (h' & IH). unfold mu_after. rewrite fold_left_app. cbn [fold_left]. fold (mu_after E X h).
      cbn [host_of h_solve]. destruct (solve_parts E (with_cg (mc_cg k) X) (mc_ps k) (mc_aero k) (mc_ctl k) (mu_after E X h)) as [[r a'] s'] eqn:K.
      cbn [snd]. destruct (parts_ll E (with_cg (mc_cg k) X) (mc_ps k) g _ _ _ _ _ _ Eg K) as [(K1 & _)|(q & K1 & _)].
      + exists h'. congruence.
      + exists (h' ++ [MkSolveCall (mc_cg k) "linear" (Some a') (mc_ctl k)])%list. unfold after. rewrite fold_left_app. cbn [fold_left].
        fold (after (me_lsolve E) g h'). unfold call_solve. cbn [k_cg k_stype k_aero k_ctl]. rewrite <- IH.
        cbn [with_cg mm_cg] in K1. now rewrite K1.
  Qed.
End Wings.

Lemma stall_check E (pl : airplane R) X ps h a c f a' s' :
  exact_solver (me_lsolve E) -> built pl -> make_machup E pl = Ok X -> a_wings pl <> [] ->
  h_solve (host_of E X ps) a c (mu_after E X h) = (Ok f, a', s') ->
  exists g rows report, make_grid true pl = Ok g /\ ll_distributions g (m_ll s') = Ok rows /\
    h_stalled (host_of E X ps) s' = Ok report /\
    List.length rows = List.length (g_sections g) /\
    (report <> None <-> exists i s row, nth_error (g_sections g) i = Some s /\ nth_error rows i = Some row /\
                          (tm (s_clmax s) < d_cl row)%R) /\
    (forall name x, report = Some (name, x) ->
       exists i s row sg, nth_error (g_sections g) i = Some s /\ nth_error rows i = Some row /\
         (tm (s_clmax s) < d_cl row)%R /\
         (forall j s'0 row', (j < i)%nat -> nth_error (g_sections g) j = Some s'0 -> nth_error rows j = Some row' ->
            (d_cl row' <= tm (s_clmax s'0))%R) /\
         In sg (wingsegments pl) /\ name = sg_name sg /\ x = from_root (sg_side sg) (s_sp s)).
Proof.
  intros He Hb Em Hw K. destruct (machup_wings E pl X Em Hw) as (g & G1 & G2 & _).
  cbn [host_of h_solve] in K. destruct (solve_parts E X ps a c (mu_after E X h)) as [[r a0] s0] eqn:P.
  assert (Er : exists v, r = Ok v) by (destruct r; [eauto|discriminate]). destruct Er as (v & ->).
  injection K as _ <- <-.
  destruct (parts_ll E X ps g _ _ _ _ _ _ G2 P) as [(_ & e & C)|(q & Q1 & Q2)]; [discriminate|].
  rewrite (Q2 v eq_refl) in Q1.
  destruct (after_ll E X g G2 h) as (h' & Eh). rewrite Eh in Q1.
  destruct (C32_lemma (me_lsolve E) true pl g h' (MkSolveCall (mm_cg X) "linear" (Some a0) c) _ _ He Hb G1 Q1) as (rows & report & R1 & R2 & R3 & R4 & R5).
  exists g, rows, report. split; [exact G1|]. split; [exact R1|]. split; [cbn [h_stalled host_of]; rewrite G2; exact R2|].
  split; [exact R3|]. split; [exact R4|]. intros name x E1. destruct (R5 name x E1) as (i & s & row & sg & S1 & S2 & S3 & S4 & S5 & S6 & _ & S7 & _).
  exists i, s, row, sg. auto 10.
Qed.

(** *** target_lift in one piece *)
Section Lift.
  Context {T : Type} {N : num_ops T} {S : Type}.
  Variable H : host T S.
  Hypothesis keeps : forall a c s r a' s', h_solve H a c s = (r, a', s') ->
    an a' = an a /\ (als a <> None -> als a' <> None).
  Lemma lift_whole target f error (w : world T S) a r w' :
    w_aero w = Some a -> given a -> w_log w = [] -> target_lift H target f error w = (r, w') ->
    w_aero w' = Some a /\ w_ctl w' = w_ctl w /\ (List.length (w_log w') <= 23)%nat /\
    Forall (fun k => k_c k = w_ctl w /\ exists x, an (k_a k) = dset (an a) "alpha" x) (w_log w') /\
    w_files w' = match named f, r with
                 | Some n, Ok (Answer x) => dset (w_files w) n [F_numbers [("alpha", x)]]
                 | Some n, Ok (ErrorRecord m) => dset (w_files w) n [F_error m]
                 | _, _ => w_files w
                 end /\
    match dget (an a) "alpha" with
    | None => r = Err KeyError /\ w_log w' = []
    | Some x0 =>
        (forall k0 l0, w_log w' = k0 :: l0 -> an (k_a k0) = dset (an a) "alpha" x0) /\
        (forall k0 k1 l0, w_log w' = k0 :: k1 :: l0 ->
           an (k_a k1) = dset (an a) "alpha" (nadd (nmul x0 (ndec 15 1)) (ndec 1 1))) /\
        match r with
        | Ok (Answer x) =>
            exists pre k0 k1 x0 y0 x1 y1, w_log w' = (pre ++ [k0; k1])%list /\
              lift_at (an a) (w_ctl w) target k0 x0 y0 /\ lift_at (an a) (w_ctl w) target k1 x1 y1 /\
              x = nsub x1 (ndiv (nmul y1 (nsub x1 x0)) (nsub y1 y0)) /\ nltb (nabs (nsub x x1)) error = true
        | Ok (ErrorRecord m) => m = "unliftable" /\ named f <> None /\ List.length (w_log w') = 23%nat
        | Err e => (e = ZeroDivisionError /\ h_parts H = false) \/
                   (e = RuntimeError /\ named f = None /\ List.length (w_log w') = 23%nat) \/
                   (exists pre k, w_log w' = (pre ++ [k])%list /\ k_r k = Err e)
        end
    end.
  Proof.
    intros Ea Hg El K. destruct (target_lift_given H _ _ _ _ _ _ _ Ea Hg K) as (v & K1 & ->). clear K.
    destruct (lift_body_spec H keeps _ _ _ _ _ _ _ K1 Ea) as (l & Ev & L1 & L2 & L3).
    assert (P1 : w_aero v = Some a) by now rewrite Ev. assert (P2 : w_ctl v = w_ctl w) by now rewrite Ev.
    assert (P3 : w_files v = w_files w) by now rewrite Ev. assert (P4 : w_log v = l) by (rewrite Ev; cbn; now rewrite El).
    clear Ev. cbn [w_aero w_ctl w_log w_files]. rewrite P4 in *.
    split; [exact P1|]. split; [exact P2|]. split; [exact L1|]. split; [exact L2|]. split.
    { unfold write_report. rewrite P3. destruct (named f), r as [[x|m]|e]; reflexivity. }
    destruct (dget (an a) "alpha") as [x0|]; [|exact L3].
    destruct L3 as (_ & M1 & M2 & M3). split; [exact M1|]. split; [exact M2|]. unfold ending in M3.
    destruct r as [[x|m]|e].
    - destruct M3 as (_ & M3). exact M3.
    - destruct M3 as (-> & B & C). repeat split; auto. lia.
    - destruct M3 as [M3|[(-> & B & C)|M3]]; auto. right. left. repeat split; auto. lia.
  Qed.
End Lift.
