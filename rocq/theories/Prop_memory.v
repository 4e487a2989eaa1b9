(** What propellers remember of earlier calls (C83). *)
From Coq Require Import ZArith String Bool Arith Lia List.
From Verif Require Import Base Num Geometry Grid LLModel PropModel Spec_Prop Spec_Memory.
Import ListNotations.
Local Open Scope string_scope.

Section Memory.
  Context {T : Type} {N : num_ops T}.
  Notation pst := (pstate T).
  Variable E : penv T.
  Hypothesis HM : steady_memory E.

  (** *** the blade iteration does not look at the allocation count *)
  Definition angles (r : res (list T * nat)) : res (list T) := match r with Ok (x, _) => Ok x | Err e => Err e end.
  Definition steady (mem : nat -> nat -> T) : Prop := forall n n' i, mem n i = mem n' i.
  Lemma mapi_ext {A B} (f f' : nat -> A -> B) l : (forall i x, f i x = f' i x) -> mapi f l = mapi f' l.
  Proof.
    intros H. unfold mapi. generalize 0%nat. induction l as [|x l IH]; intros i; [reflexivity|]. cbn. now rewrite H, IH.
  Qed.
  Lemma get_CL_ext mem mem' ss (al : list T) : (forall i, mem i = mem' i) -> get_CL mem ss al = get_CL mem' ss al.
  Proof. intros H. apply mapi_ext. intros i [x|]; auto. Qed.
  Lemma get_CD_ext mem mem' ss (cl al : list T) : (forall i, mem i = mem' i) -> get_CD mem ss cl al = get_CD mem' ss cl al.
  Proof. intros H. apply mapi_ext. intros i [x|]; auto. Qed.
  Lemma ei_function_ext mem mem' k d bl l : (forall i, mem i = mem' i) -> ei_function (T := T) mem k d bl l = ei_function mem' k d bl l.
  Proof. intros H. unfold ei_function. now rewrite (get_CL_ext _ _ _ _ H). Qed.
  Lemma ei_loop_clk mem k d bl : steady mem -> forall fuel c c' i l,
    angles (ei_loop (T := T) fuel mem c k d bl i l) = angles (ei_loop fuel mem c' k d bl i l).
  Proof.
    intros H. induction fuel as [|fuel IH]; intros c c' i l; cbn [ei_loop]; [reflexivity|].
    destruct (_ || _)%bool; [reflexivity|]. rewrite (ei_function_ext (mem c) (mem c')) by apply H. apply IH.
  Qed.
  Lemma find_ei_clk fuel mem c c' k d bl ss einf ei : steady mem ->
    angles (find_ei (T := T) fuel mem c k d bl ss einf ei) = angles (find_ei fuel mem c' k d bl ss einf ei).
  Proof.
    intros H. unfold find_ei. rewrite (ei_function_ext (mem c) (mem c')), (ei_function_ext (mem (S c)) (mem (S c'))) by apply H.
    now apply ei_loop_clk.
  Qed.

  (** *** programs that do the same from related states *)
  Definition sim {A} (Q Q' : pst -> pst -> Prop) (p p' : st pst A) : Prop :=
    forall s s', Q s s' -> fst (p s) = fst (p' s') /\ (forall a, fst (p s) = Ok a -> Q' (snd (p s)) (snd (p' s'))).
  Lemma sim_bind {A B} Q Q1 Q2 (p p' : st pst A) (c c' : A -> st pst B) :
    sim Q Q1 p p' -> (forall a, sim Q1 Q2 (c a) (c' a)) -> sim Q Q2 (sbind p c) (sbind p' c').
  Proof.
    intros P C s s' H. destruct (P s s' H) as [K1 K2]. unfold sbind.
    destruct (p s) as [[a|e] t], (p' s') as [[a'|e'] t']; cbn [fst snd] in *; try discriminate.
    - injection K1 as <-. apply C. now apply (K2 a).
    - injection K1 as <-. split; [reflexivity|discriminate].
  Qed.
  Lemma sim_raise {A} (Q Q' : pst -> pst -> Prop) e : sim (A := A) Q Q' (sraise e) (sraise e).
  Proof. intros s s' _. split; [reflexivity|discriminate]. Qed.
  Lemma sim_lift {A} (Q : pst -> pst -> Prop) (r : res A) : sim Q Q (slift r) (slift r).
  Proof. intros s s' H. destruct r; split; auto; discriminate. Qed.
  Lemma sim_ret {A} (Q Q' : pst -> pst -> Prop) (a : A) : (forall s s', Q s s' -> Q' s s') -> sim Q Q' (sret a) (sret a).
  Proof. intros K s s' H. split; [reflexivity|]. intros b _. now apply K. Qed.
  Lemma sim_mod (Q Q' : pst -> pst -> Prop) f f' : (forall s s', Q s s' -> Q' (f s) (f' s')) -> sim Q Q' (smod f) (smod f').
  Proof. intros K s s' H. split; [reflexivity|]. intros b _. now apply K. Qed.
  Lemma sim_get {A} (Q : pst -> pst -> Prop) (f : pst -> A) : (forall s s', Q s s' -> f s = f s') -> sim Q Q (sget f) (sget f).
  Proof. intros K s s' H. unfold sget. cbn [fst snd]. rewrite (K s s' H). split; [reflexivity|auto]. Qed.
  Lemma sim_all {B} (Q Q' : pst -> pst -> Prop) (c c' : pst -> st pst B) :
    (forall t t', Q t t' -> sim (fun s s' => s = t /\ s' = t') Q' (c t) (c' t')) ->
    sim Q Q' (sbind (sget (fun s => s)) c) (sbind (sget (fun s => s)) c').
  Proof. intros K s s' H. unfold sbind, sget. apply (K s s' H s s'). auto. Qed.
  Lemma sim_pre {A} (Q0 Q Q' : pst -> pst -> Prop) (p p' : st pst A) : (forall s s', Q0 s s' -> Q s s') -> sim Q Q' p p' -> sim Q0 Q' p p'.
  Proof. intros K S s s' H. apply S. now apply K. Qed.

  Definition QA (s s' : pst) : Prop := p_ei s = p_ei s' /\ p_v s = p_v s' /\ p_rho s = p_rho s' /\ p_Vinf s = p_Vinf s'.
  Definition QP (s s' : pst) : Prop := QA s s' /\ p_power s = p_power s' /\ p_throttle s = p_throttle s'.
  Definition QB (s s' : pst) : Prop := QP s s' /\ p_n s = p_n s'.
  Definition QC (s s' : pst) : Prop := QB s s' /\ p_J s = p_J s'.
  (** the blades, on top *)
  Definition coeffs (s : pst) := (p_einf s, p_alpha s, p_CL s, p_CD s, p_CT s, p_Cl s, p_CNa s, p_Cna s, p_CP s, p_eff s).
  Definition QD (s s' : pst) : Prop := QC s s' /\ coeffs s = coeffs s'.
  Definition QE (s s' : pst) : Prop := QD s s' /\ p_Vi s = p_Vi s' /\ p_Vxi s = p_Vxi s' /\ p_Vti s = p_Vti s'.
  Lemma QD_QB s s' : QD s s' -> QB s s'.
  Proof. intros [[K _] _]. exact K. Qed.

  Section One.
    Variable g : pgeom T.
    Lemma find_coefficients_sim : sim QC QD (find_coefficients E g) (find_coefficients E g).
    Proof.
      intros s s' ((((He & Hf) & Hp) & Hn) & HJ). unfold find_coefficients. rewrite <- HJ, <- He. cbv zeta.
      destruct (last_of (pg_stations g)) as [sl|]; [|split; [reflexivity|discriminate]].
      assert (Hst : steady (pe_mem E (pg_name g))) by (intros n n' i; apply HM).
      set (c := p_clock s). set (c' := p_clock s'). clearbody c c'.
      set (ei0 := first_guess _ _ _). clearbody ei0.
      pose proof (find_ei_clk (pe_fuel E) _ c c' (pg_k g) (pg_d g) (z_beta sl) (pg_stations g)
        (advance_angles (p_J s) (pg_stations g)) ei0 Hst) as K.
      destruct (find_ei _ _ c _ _ _ _ _ _) as [[x k]|e], (find_ei _ _ c' _ _ _ _ _ _) as [[x' k']|e']; cbn [angles] in K; try discriminate.
      2:{ injection K as <-. split; [reflexivity|discriminate]. }
      injection K as <-. pose (M := pe_mem E (pg_name g)). fold M. fold M in Hst.
      rewrite (get_CL_ext (M k) (M k')), (get_CL_ext (M (S (S k))) (M (S (S k')))), (get_CL_ext (M (S (S (S k)))) (M (S (S (S k'))))),
        (get_CD_ext (M (S k)) (M (S k'))) by apply Hst.
      split; [reflexivity|]. intros _ _. cbn [fst snd]. destruct Hf as (F1 & F2 & F3), Hp as (P1 & P2).
      split; [|reflexivity]. split; [|exact HJ]. split; [|exact Hn]. split; [|exact (conj P1 P2)]. split; [reflexivity|exact (conj F1 (conj F2 F3))].
    Qed.
    Lemma solve_at_rate_sim n : sim QP QD (solve_at_rate E g n) (solve_at_rate E g n).
    Proof.
      unfold solve_at_rate. eapply sim_bind; [|intros; apply find_coefficients_sim].
      apply sim_mod. intros s s' ((He & Hv & Hr & HV) & P1 & P2). rewrite HV.
      split; [|reflexivity]. split; [|reflexivity]. repeat split; assumption.
    Qed.
    Lemma zero_power_sim pw n : sim QP QD (zero_power_difference E g pw n) (zero_power_difference E g pw n).
    Proof.
      unfold zero_power_difference. eapply sim_bind; [apply solve_at_rate_sim|]. intros [].
      apply sim_all. intros t t' H s s' [-> ->]. unfold sret. cbn [fst snd]. split; [|auto].
      destruct H as ((((( _ & _ & -> & _) & _) & ->) & _) & H). unfold coeffs in H.
      now replace (p_CP t') with (p_CP t) by congruence.
    Qed.
    Lemma zero_torque_sim mo th n : sim QP QD (zero_torque_difference E g mo th n) (zero_torque_difference E g mo th n).
    Proof.
      unfold zero_torque_difference. eapply sim_bind; [apply solve_at_rate_sim|]. intros [].
      apply sim_all. intros t t' H. pose proof H as H0. destruct H as ((((( _ & _ & -> & _) & _) & ->) & _) & H). unfold coeffs in H.
      replace (p_Cl t') with (p_Cl t) by congruence.
      intros s s' [-> ->]. unfold sbind, slift. destruct (motor_torque _ _ _ _); split; try reflexivity; [|discriminate]. intros _ _. exact H0.
    Qed.
    Lemma QD_QP s s' : QD s s' -> QP s s'.
    Proof. intros [[[K _] _] _]. exact K. Qed.
    Lemma rate_loop_sim f : (forall n, sim QP QD (f n) (f n)) -> forall fuel x0 y0 x1 y1,
      sim QD QD (rate_loop fuel f x0 y0 x1 y1) (rate_loop fuel f x0 y0 x1 y1).
    Proof.
      intros K. induction fuel as [|fuel IH]; intros; cbn [rate_loop]; [apply sim_raise|]. cbv zeta.
      destruct (nltb _ _); [now apply sim_ret|]. eapply sim_bind; [apply (sim_pre _ _ _ _ _ QD_QP), K|]. intros y. apply IH.
    Qed.
    Lemma find_rate_sim fuel f : (forall n, sim QP QD (f n) (f n)) -> sim QB QD (find_rate fuel f) (find_rate fuel f).
    Proof.
      intros K. unfold find_rate. eapply sim_bind; [apply sim_get; intros s s' H; apply H|]. intros x0. cbv zeta.
      eapply sim_bind; [apply (sim_pre _ QP); [intros s s' H; apply H|apply K]|]. intros y0. cbv beta. destruct (nltb _ _); [now apply sim_ret|].
      eapply sim_bind; [apply (sim_pre _ _ _ _ _ QD_QP), K|]. intros y1. now apply rate_loop_sim.
    Qed.
    Lemma state_from_power_sim : sim QB QD (state_from_power E g) (state_from_power E g).
    Proof.
      unfold state_from_power. apply sim_all. intros t t' H. pose proof H as (((_ & _ & _ & HV) & HP & HT) & Hn). rewrite <- HV, <- HP, <- HT, <- Hn.
      apply (sim_pre _ QB); [intros s s' [-> ->]; exact H|]. clear H HV HP HT Hn.
      eapply sim_bind.
      - destruct (p_throttle t) as [th|].
        + destruct (pg_motor g) as [m|]; [|apply sim_raise]. eapply sim_bind; [apply sim_lift|]. intros _.
          apply find_rate_sim. intros n. apply zero_torque_sim.
        + destruct (p_power t) as [pw|]; [|apply sim_raise]. eapply sim_bind; [apply sim_lift|]. intros _.
          apply find_rate_sim. intros n. apply zero_power_sim.
      - intros n. apply sim_mod. intros s s' [[[((He & Hv & Hr & HV) & P1 & P2) Hn] HJ] Hc]. rewrite HV, P1, P2.
        split; [|exact Hc]. split; [|reflexivity]. split; [|reflexivity]. split; [|now split]. now split.
    Qed.

    (** *** the operating state *)
    Definition Q0 (rg : Prop) (s s' : pst) : Prop := p_ei s = p_ei s' /\ (rg \/ p_n s = p_n s').
    Definition Q1 (rg : Prop) (s s' : pst) : Prop := QA s s' /\ (rg \/ p_n s = p_n s').
    Lemma set_aero_sim rg a : sim (Q0 rg) (Q1 rg) (p_set_aero a) (p_set_aero a).
    Proof.
      unfold p_set_aero. destruct (opt_truthy aero_truthy a) as [b|].
      - destruct (dget (an b) "V_mag"); [destruct (dget (an b) "rho")|].
        + apply sim_mod. intros s s' [He Hn]. split; [|exact Hn]. repeat split. exact He.
        + intros s s' H. split; [reflexivity|discriminate].
        + intros s s' H. split; [reflexivity|discriminate].
      - apply sim_mod. intros s s' [He Hn]. split; [|exact Hn]. repeat split. exact He.
    Qed.
    (** set, J too if the rate is given *)
    Definition Q2 (s s' : pst) : Prop := QB s s' /\ (p_power s = None -> p_throttle s = None -> p_J s = p_J s').
    Definition Q1p (rg : Prop) (s s' : pst) : Prop := Q1 rg s s' /\ p_power s = p_power s'.
    Lemma set_prop_sim d x : sim (Q1 (fixes_rate x)) Q2 (p_set_prop d x) (p_set_prop d x).
    Proof.
      assert (HV : forall rg, sim (Q1 rg) (Q1 rg) (sget (@p_Vinf T)) (sget (@p_Vinf T))) by (intros rg; apply sim_get; intros s s' H; apply H).
      assert (Hs : forall n J rg, sim (Q1 rg) Q2 (smod (fun s => set_op n J None None s)) (smod (fun s => set_op n J None None s))).
      { intros n J rg. apply sim_mod. intros s s' [H _]. split; [|reflexivity]. split; [|reflexivity]. split; [exact H|now split]. }
      assert (Hd : forall rg, sim (Q1 rg) Q2 (default_op d) (default_op d)).
      { intros rg. unfold default_op. eapply sim_bind; [apply HV|]. intros V. eapply sim_bind; [apply sim_lift|]. intros n. apply Hs. }
      assert (HVp : forall rg, sim (Q1p rg) (Q1p rg) (sget (@p_Vinf T)) (sget (@p_Vinf T))) by (intros rg; apply sim_get; intros s s' [H _]; apply H).
      assert (Hsp : forall n J rg, sim (Q1p rg) Q2 (smod (fun s => set_op n J None None s)) (smod (fun s => set_op n J None None s))).
      { intros n J rg. apply (sim_pre _ (Q1 rg)); [now intros s s' []|apply Hs]. }
      assert (Hn : forall f rg, (forall s, p_power (f s) = None /\ p_n (f s) = p_n s /\ p_ei (f s) = p_ei s /\ p_v (f s) = p_v s /\ p_rho (f s) = p_rho s /\ p_Vinf (f s) = p_Vinf s) ->
        sim (Q1 rg) (Q1p rg) (smod f) (smod f)).
      { intros f rg Hf. apply sim_mod. intros s s' [(H1 & H2 & H3 & H4) H]. destruct (Hf s) as (A0 & A1 & A2 & A3 & A4 & A5), (Hf s') as (B0 & B1 & B2 & B3 & B4 & B5).
        split; [|congruence]. split; [repeat split; congruence|]. now rewrite A1, B1. }
      unfold p_set_prop. destruct x as [[x|[|y L]]|]; [|apply Hd| |apply Hd].
      - destruct (ntruthy x); [|apply Hd]. intros s s' H. split; [reflexivity|discriminate].
      - set (l := y :: L). set (rg := fixes_rate (Some (PDict l))).
        assert (Hfree : rg -> dget l "J" <> None \/ dget l "rot_per_sec" <> None).
        { intros [K|(l' & K & K')]; [discriminate|]. injection K as <-. exact K'. }
        eapply sim_bind; [apply (Hn _ rg); intros s; repeat split|]. intros _.
        destruct (dget l "J") as [vJ|] eqn:EJ.
        { eapply sim_bind; [apply sim_lift|]. intros J. eapply sim_bind; [apply (sim_pre _ (Q1 rg)); [now intros s s' []|]; apply (Hn _ rg); intros s; repeat split|]. intros _.
          eapply sim_bind; [apply HVp|]. intros V. destruct (_ || _)%bool.
          - destruct (dget l "rot_per_sec"); [|apply sim_raise]. eapply sim_bind; [apply sim_lift|]. intros n. apply Hsp.
          - eapply sim_bind; [apply sim_lift|]. intros n. apply Hsp. }
        destruct (dget l "rot_per_sec") as [vn|] eqn:En.
        { eapply sim_bind; [apply sim_lift|]. intros n. eapply sim_bind; [apply (sim_mod _ (Q1p rg))|].
          - intros s s' [[H _] Hp]. split; [|reflexivity]. split; [exact H|]. right. reflexivity.
          - intros _. eapply sim_bind; [apply HVp|]. intros V. eapply sim_bind; [apply sim_lift|]. intros J. apply Hsp. }
        assert (Hg : forall s s', Q1p rg s s' -> QA s s' /\ p_n s = p_n s').
        { intros s s' [[H [K|K]] _]; [|auto]. exfalso. destruct (Hfree K); congruence. }
        destruct (dget l "brake_power") as [vp|].
        { eapply sim_bind; [apply sim_lift|]. intros pw. apply sim_mod. intros s s' H. destruct (Hg _ _ H) as [HA HB].
          split; [|discriminate]. split; [|exact HB]. split; [exact HA|now split]. }
        destruct (dget l "electric_throttle") as [vt|]; [|apply sim_raise].
        eapply sim_bind; [apply sim_lift|]. intros th. apply sim_mod. intros s s' H. destruct (Hg _ _ H) as [HA HB].
        split; [|discriminate]. split; [|exact HB]. split; [exact HA|]. split; [exact (proj2 H)|reflexivity].
    Qed.

    (** *** forces *)
    Lemma resolve_same cg s s' : QE s s' -> resolve g cg s = resolve g cg s'.
    Proof.
      intros (((((( _ & Hv & Hr & _) & _) & Hn) & _) & Hc) & _). unfold coeffs in Hc. unfold resolve. rewrite Hv, Hr, Hn.
      replace (p_CNa s') with (p_CNa s) by congruence. replace (p_Cna s') with (p_Cna s) by congruence.
      replace (p_CT s') with (p_CT s) by congruence. replace (p_Cl s') with (p_Cl s) by congruence. reflexivity.
    Qed.
    Definition QF (s s' : pst) : Prop := remembered s = remembered s'.
    Lemma QE_QF s s' q : QE s s' -> QF (set_forces q s) (set_forces q s').
    Proof.
      intros (((((( H1 & Hv & Hr & HV) & HP & HT) & Hn) & HJ) & Hc) & Hi1 & Hi2 & Hi3). unfold coeffs in Hc. unfold QF, remembered, set_forces.
      destruct q as [[[F M] Th] l]. cbn [p_clock p_ei p_n p_J p_power p_throttle p_v p_rho p_Vinf p_einf p_alpha p_CL p_CD p_CT p_Cl p_CNa p_Cna p_CP p_eff p_Vi p_Vxi p_Vti p_T p_l p_F p_M].
      repeat (apply pair_equal_spec in Hc; destruct Hc as [Hc ?]). 
      rewrite H1, Hv, Hr, HV, HP, HT, Hn, HJ, Hi1, Hi2, Hi3, Hc. 
      repeat match goal with K : ?f s = ?f s' |- _ => rewrite K; clear K end. reflexivity.
    Qed.
    Lemma calc_forces_sim cg : sim Q2 QF (p_calc_forces E g cg) (p_calc_forces E g cg).
    Proof.
      unfold p_calc_forces. apply sim_all. intros t t' H. pose proof H as ((((_ & _ & _ & HV) & HP & HT) & Hn) & HJ). rewrite <- HP, <- HT.
      apply (sim_bind _ QD).
      - assert (K : sim (fun s s' => s = t /\ s' = t') QD (state_from_power E g) (state_from_power E g)).
        { apply (sim_pre _ QB); [|apply state_from_power_sim]. intros s s' [-> ->]. apply H. }
        destruct (p_power t), (p_throttle t); try exact K.
        apply (sim_pre _ QC); [|apply find_coefficients_sim]. intros s s' [-> ->]. split; [apply H|]. now apply HJ.
      - intros []. apply (sim_bind _ QE).
        + apply sim_mod. intros s s' K. pose proof K as (((((He & _) & _) & Hm) & _) & Hc). unfold coeffs in Hc. unfold find_Vi.
          split; [exact K|]. cbn [p_Vi p_Vxi p_Vti]. rewrite He, Hm. replace (p_einf s') with (p_einf s) by congruence. auto.
        + intros []. apply sim_all. intros u u' K. rewrite (resolve_same cg u u' K). apply (sim_bind _ QE).
          * apply (sim_pre _ QE); [intros s s' [-> ->]; exact K|]. apply sim_lift.
          * intros q. apply (sim_bind _ QF); [apply sim_mod; intros s s'; apply QE_QF|]. intros _. now apply sim_ret.
    Qed.
    Lemma fixes_rate_local ps name : fixes_rate (setting_of ps name) -> fixes_rate (local_state (T := T) ps name).
    Proof. destruct ps as [[|e d]|]; auto. intros _. left. exact I. Qed.
    Lemma run_prop_sim cg a ps : sim (same_start ps g) QF (run_prop E cg a ps g) (run_prop E cg a ps g).
    Proof.
      unfold run_prop. set (rg := fixes_rate (local_state ps (pg_name g))).
      apply (sim_pre _ (Q0 rg)).
      { intros s s' [H1 [H2|H2]]; split; auto. left. now apply fixes_rate_local. }
      eapply sim_bind; [apply set_aero_sim|]. intros []. eapply sim_bind; [apply set_prop_sim|]. intros []. apply calc_forces_sim.
    Qed.
  End One.
End Memory.
