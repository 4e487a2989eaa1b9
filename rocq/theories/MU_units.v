(** Unit independence of the analyses (C72): a simulation between the two runs. *)
From Coq Require Import Reals ZArith String Bool Arith Lia Lra List.
From Verif Require Import Base Num RVec Geometry Grid Grid_facts LLModel PropModel Spec_Grid Spec_LL LL_R MU Spec_MU Grid_thm
     LL_thm2 Spec_Units LL_units Prop_units Prop_units2 MU_thm12.
Import ListNotations.
Local Open Scope string_scope.
Local Open Scope R_scope.

Section Host.
  Variables (m k l : R) (S : Type) (H H' : host R S) (Rs : S -> S -> Prop).
  Hypothesis Hm : 0 < m.
  Hypothesis Hk : 0 < k.
  Hypothesis Hl : 0 < l.
  Notation W := (world R S).
  Notation q := (m * k ^ 2 * l ^ 2).
  Definition refs_in (r : refs R) : refs R := MkRefs (l * l * r_Sw r) (l * r_lat r) (l * r_long r).
  Definition rmapf {A B} (f : A -> B) (r : res A) : res B := match r with Ok a => Ok (f a) | Err e => Err e end.
  Definition full (a : aero_state R) : Prop := dget (an a) "V_mag" <> None /\ dget (an a) "rho" <> None.
  Hypothesis Hsolve : forall a a' c s s', full a -> state_in m k l a a' -> Rs s s' ->
    fst (fst (h_solve H' a' c s')) = rmapf (fm_in m k l) (fst (fst (h_solve H a c s))) /\
    full (snd (fst (h_solve H a c s))) /\ state_in m k l (snd (fst (h_solve H a c s))) (snd (fst (h_solve H' a' c s'))) /\
    Rs (snd (h_solve H a c s)) (snd (h_solve H' a' c s')).
  Hypothesis Hrefs : h_refs H' = option_map refs_in (h_refs H).
  Hypothesis Hparts : h_parts H' = h_parts H.
  Hypothesis Hcg : h_cg H' = vscale l (h_cg H).
  Hypothesis Hstalled : forall s s', Rs s s' -> h_stalled H' s' = h_stalled H s.

  Lemma q_pos : 0 < q.
  Proof. apply Rmult_lt_0_compat; [apply Rmult_lt_0_compat|]; auto; apply pow_lt; auto. Qed.
  Lemma quot_q a b : q * a / (q * b) = a / b.
  Proof.
    pose proof q_pos. unfold Rdiv. rewrite Rinv_mult.
    replace (q * a * (/ q * / b)) with (q * / q * (a * / b)) by ring. rewrite Rinv_r by lra. ring.
  Qed.
  Lemma quot_l a b : l * a / (l * b) = a / b.
  Proof.
    unfold Rdiv. rewrite Rinv_mult. replace (l * a * (/ l * / b)) with (l * / l * (a * / b)) by ring. rewrite Rinv_r by lra. ring.
  Qed.

  (** *** Worlds that agree, programs that do the same *)
  Definition RW (w w' : W) : Prop :=
    exists a a', w_aero w = Some a /\ w_aero w' = Some a' /\ full a /\ state_in m k l a a' /\
      w_ctl w' = w_ctl w /\ Rs (w_model w) (w_model w').
  Definition sim {A B} (RA : A -> B -> Prop) (p : st W A) (p' : st W B) : Prop :=
    forall w w', RW w w' ->
      match fst (p w), fst (p' w') with
      | Ok a, Ok b => RA a b
      | Err e, Err e' => e = e'
      | _, _ => False
      end /\ RW (snd (p w)) (snd (p' w')).

  Lemma sim_ret {A B} (RA : A -> B -> Prop) a b : RA a b -> sim RA (sret a) (sret b).
  Proof. intros K w w' R0. split; [exact K|exact R0]. Qed.
  Lemma sim_raise {A B} (RA : A -> B -> Prop) e : sim RA (sraise e) (sraise e).
  Proof. intros w w' R0. split; [reflexivity|exact R0]. Qed.
  Lemma sim_lift {A B} (RA : A -> B -> Prop) x y :
    match x, y with Ok a, Ok b => RA a b | Err e, Err e' => e = e' | _, _ => False end -> sim RA (slift x) (slift y).
  Proof. intros K w w' R0. split; [exact K|exact R0]. Qed.
  Lemma sim_bind {A B C D} (RA : A -> B -> Prop) (RB : C -> D -> Prop) p p' f f' :
    sim RA p p' -> (forall a b, RA a b -> sim RB (f a) (f' b)) -> sim RB (sbind p f) (sbind p' f').
  Proof.
    intros P F w w' R0. specialize (P w w' R0). unfold sbind.
    destruct (p w) as [[a|e] v], (p' w') as [[b|e'] v']; cbn [fst snd] in *; destruct P as [P R1]; try contradiction.
    - exact (F a b P v v' R1).
    - split; assumption.
  Qed.
  Lemma sim_weak {A B} (RA RA' : A -> B -> Prop) p p' : (forall a b, RA a b -> RA' a b) -> sim RA p p' -> sim RA' p p'.
  Proof.
    intros K P w w' R0. specialize (P w w' R0).
    destruct (p w) as [[a|e] v], (p' w') as [[b|e'] v']; cbn [fst snd] in *; destruct P; split; auto.
  Qed.
  Notation conv := (entry_in m k l).
  Lemma full_given a : full a -> aero_truthy a = true.
  Proof. intros [F _]. unfold aero_truthy. destruct (an a); [contradiction F; reflexivity|reflexivity]. Qed.
  Lemma full_in a a' : full a -> state_in m k l a a' -> full a'.
  Proof.
    intros [F G] [K _]. split; rewrite K.
    - destruct (dget (an a) "V_mag"); [discriminate|exact F].
    - destruct (dget (an a) "rho"); [discriminate|exact G].
  Qed.
  Lemma state_set a a' key x : state_in m k l a a' ->
    state_in m k l (MkAero (dset (an a) key x) (als a)) (MkAero (dset (an a') key (conv key x)) (als a')).
  Proof.
    intros [K L]. split; [|exact L]. intros key'. cbn [an]. rewrite !dget_dset.
    destruct (String.eqb key key') eqn:E; [|apply K]. apply String.eqb_eq in E. subst key'. reflexivity.
  Qed.
  Lemma full_set a key x : full a -> full (MkAero (dset (an a) key x) (als a)).
  Proof. intros [F G]. split; cbn [an]; rewrite dget_dset; [destruct (String.eqb key "V_mag")|destruct (String.eqb key "rho")]; auto; discriminate. Qed.

  Lemma sim_set key x x' : x' = conv key x -> sim eq (set_aero key x) (set_aero key x').
  Proof.
    intros -> w w' (a & a' & E & E' & F & K & C & R0). split; [reflexivity|]. unfold set_aero, smod, put_aero. cbn [snd w_aero w_ctl w_model].
    rewrite E, E'. cbn [option_map]. eexists _, _. split; [reflexivity|]. split; [reflexivity|].
    split; [now apply full_set|]. split; [now apply state_set|]. auto.
  Qed.
  Lemma sim_set_ctl key x : sim eq (set_ctl key x) (set_ctl key x).
  Proof.
    intros w w' (a & a' & E & E' & F & K & C & R0). split; [reflexivity|]. unfold set_ctl, smod, put_ctl. cbn [snd].
    exists a, a'. cbn [w_aero w_ctl w_model]. rewrite C. auto 10.
  Qed.
  Lemma sim_get key dflt : conv key dflt = dflt -> sim (fun x y => y = conv key x) (get_aero key dflt) (get_aero key dflt).
  Proof.
    intros D w w' R0. pose proof R0 as (a & a' & E & E' & F & K & _). unfold get_aero. rewrite E, E'. cbn [fst snd].
    split; [|exact R0]. destruct K as [K _]. unfold dgetd. rewrite K. destruct (dget (an a) key); cbn [option_map]; auto.
  Qed.
  Lemma sim_get_V dflt : sim (fun x y => y = k * x) (get_aero "V_mag" dflt) (get_aero "V_mag" dflt).
  Proof.
    intros w w' R0. pose proof R0 as (a & a' & E & E' & [F _] & K & _). unfold get_aero. rewrite E, E'. cbn [fst snd].
    split; [|exact R0]. destruct K as [K _]. unfold dgetd. rewrite K. destruct (dget (an a) "V_mag"); [reflexivity|congruence].
  Qed.
  Lemma sim_get_rho dflt : sim (fun x y => y = m * x) (get_aero "rho" dflt) (get_aero "rho" dflt).
  Proof.
    intros w w' R0. pose proof R0 as (a & a' & E & E' & [_ F] & K & _). unfold get_aero. rewrite E, E'. cbn [fst snd].
    split; [|exact R0]. destruct K as [K _]. unfold dgetd. rewrite K. destruct (dget (an a) "rho"); [reflexivity|congruence].
  Qed.
  Lemma sim_get_ctl key dflt : sim eq (get_ctl key dflt) (get_ctl key dflt).
  Proof.
    intros w w' R0. pose proof R0 as (a & a' & E & E' & F & K & C & _). unfold get_ctl. rewrite C.
    destruct (w_ctl w); cbn [fst snd]; auto.
  Qed.
  Lemma sim_solve : sim (fun f f' => f' = fm_in m k l f) (do_solve H) (do_solve H').
  Proof.
    intros w w' (a & a' & E & E' & F & K & C & R0).
    assert (G : aero_given w = true) by (unfold aero_given, opt_truthy; now rewrite E, (full_given _ F)).
    assert (G' : aero_given w' = true).
    { unfold aero_given, opt_truthy. rewrite E', (full_given _ (full_in _ _ F K)). reflexivity. }
    unfold do_solve. rewrite G, G'. unfold raw_solve. rewrite E, E', C.
    pose proof (Hsolve a a' (w_ctl w) (w_model w) (w_model w') F K R0) as (A1 & A2 & A3 & A4).
    destruct (h_solve H a (w_ctl w) (w_model w)) as [[r b] t], (h_solve H' a' (w_ctl w) (w_model w')) as [[r' b'] t'].
    cbn [fst snd] in *. subst r'. split.
    - destruct r; cbn [rmapf]; reflexivity.
    - exists b, b'. cbn [w_aero w_ctl w_model]. auto 10.
  Qed.
  Lemma sim_refs : sim (fun r r' => r' = refs_in r) (need_refs H) (need_refs H').
  Proof. unfold need_refs. rewrite Hrefs. destruct (h_refs H); cbn [option_map]; [now apply sim_ret|apply sim_raise]. Qed.
  Lemma sim_with {A B} (RA : A -> B -> Prop) a a' p p' : full a -> state_in m k l a a' -> sim RA p p' ->
    sim RA (with_aero a p) (with_aero a' p').
  Proof.
    intros F K P w w' (d & d' & E & E' & FD & KD & C & R0). unfold with_aero.
    specialize (P (put_aero (Some a) w) (put_aero (Some a') w')).
    assert (Q : RW (put_aero (Some a) w) (put_aero (Some a') w')) by (exists a, a'; cbn [put_aero w_aero w_ctl w_model]; auto 10).
    specialize (P Q). destruct (p (put_aero (Some a) w)) as [r v], (p' (put_aero (Some a') w')) as [r' v']. cbn [fst snd] in *.
    destruct P as [P (x & x' & _ & _ & _ & _ & C1 & R1)]. split; [exact P|].
    exists d, d'. cbn [put_aero w_aero w_ctl w_model]. auto 10.
  Qed.
  Lemma sim_with_ctl {A B} (RA : A -> B -> Prop) c p p' : sim RA p p' -> sim RA (with_ctl c p) (with_ctl c p').
  Proof.
    intros P w w' (d & d' & E & E' & FD & KD & C & R0). unfold with_ctl.
    specialize (P (put_ctl (Some c) w) (put_ctl (Some c) w')).
    assert (Q : RW (put_ctl (Some c) w) (put_ctl (Some c) w')) by (exists d, d'; cbn [put_ctl w_aero w_ctl w_model]; auto 10).
    specialize (P Q). destruct (p (put_ctl (Some c) w)) as [r v], (p' (put_ctl (Some c) w')) as [r' v']. cbn [fst snd] in *.
    destruct P as [P (x & x' & A1 & A2 & A3 & A4 & C1 & R1)]. split; [exact P|].
    exists x, x'. cbn [put_ctl w_aero w_ctl w_model]. auto 10.
  Qed.
  Lemma sim_file {A B} (RA : A -> B -> Prop) f c c' a b : RA a b -> sim RA (write_if f c ;;; sret a) (write_if f c' ;;; sret b).
  Proof.
    intros K. apply sim_bind with (RA := eq); [|intros; now apply sim_ret].
    unfold write_if. destruct (named f); [|now apply sim_ret].
    intros w w' R0. split; [reflexivity|]. exact R0.
  Qed.
  (** with a full dictionary nothing is replaced by a default *)
  Lemma sim_aero_given {A B} (RA : A -> B -> Prop) p p' (z : st W A) (z' : st W B) : sim RA p p' ->
    sim RA (fun w => if aero_given w then p w else z w) (fun w => if aero_given w then p' w else z' w).
  Proof.
    intros P w w' R0. pose proof R0 as (a & a' & E & E' & F & K & _).
    assert (G : aero_given w = true) by (unfold aero_given, opt_truthy; now rewrite E, (full_given _ F)).
    assert (G' : aero_given w' = true).
    { unfold aero_given, opt_truthy. rewrite E', (full_given _ (full_in _ _ F K)). reflexivity. }
    rewrite G, G'. exact (P w w' R0).
  Qed.

  (** *** Derivatives *)
  Definition pair_in (x y : fm R * fm R) : Prop := y = (fm_in m k l (fst x), fm_in m k l (snd x)).
  Lemma conv_add key x y : conv key (x + y) = conv key x + conv key y.
  Proof. unfold entry_in. destruct (key =? "rho"); [ring|]. destruct (key =? "V_mag"); [ring|]. destruct (_ || _)%bool; [ring|reflexivity]. Qed.
  Lemma conv_sub key x y : conv key (x - y) = conv key x - conv key y.
  Proof. unfold entry_in. destruct (key =? "rho"); [ring|]. destruct (key =? "V_mag"); [ring|]. destruct (_ || _)%bool; [ring|reflexivity]. Qed.
  Lemma sim_around key x0 d x0' d' : x0' = conv key x0 -> d' = conv key d ->
    sim pair_in (around_aero H key x0 d) (around_aero H' key x0' d').
  Proof.
    intros -> ->. unfold around_aero.
    apply sim_bind with (RA := eq); [apply sim_set; rnum; now rewrite conv_sub|]. intros _ _ _.
    eapply sim_bind; [apply sim_solve|]. cbv beta. intros b b' ->.
    apply sim_bind with (RA := eq); [apply sim_set; rnum; now rewrite conv_add|]. intros _ _ _.
    eapply sim_bind; [apply sim_solve|]. cbv beta. intros f f' ->. now apply sim_ret.
  Qed.
  Lemma sim_around_ctl key x0 d : sim pair_in (around_ctl H key x0 d) (around_ctl H' key x0 d).
  Proof.
    unfold around_ctl.
    apply sim_bind with (RA := eq); [apply sim_set_ctl|]. intros _ _ _.
    eapply sim_bind; [apply sim_solve|]. cbv beta. intros b b' ->.
    apply sim_bind with (RA := eq); [apply sim_set_ctl|]. intros _ _ _.
    eapply sim_bind; [apply sim_solve|]. cbv beta. intros f f' ->. now apply sim_ret.
  Qed.
  Lemma nine_in sfx scale scale' r x y : (forall z, scale' (q * z) = scale z) -> (forall z, scale' (q * l * z) = l * scale z) ->
    pair_in x y -> nine sfx scale' (refs_in r) (fst y) (snd y) = nine sfx scale r (fst x) (snd x).
  Proof.
    intros E1 E2 ->. unfold nine. cbn [fst snd fm_in FL FD FS FX FY FZ MX MY MZ refs_in r_lat r_long]. rnum.
    rewrite <- !Rmult_minus_distr_l, !E1, !E2, !quot_l. reflexivity.
  Qed.
  Lemma sim_dyn : sim (fun x y => y = q * x) (dynamic_pressure_area H) (dynamic_pressure_area H').
  Proof.
    unfold dynamic_pressure_area.
    eapply sim_bind; [apply sim_get_rho|]. cbv beta. intros rho rho' ->.
    eapply sim_bind; [apply sim_get_V|]. cbv beta. intros V V' ->.
    eapply sim_bind; [apply sim_refs|]. cbv beta. intros r r' ->.
    apply sim_ret. cbn [refs_in r_Sw]. rnum. ring.
  Qed.
  Lemma scale_ok DP delta z : q * z / n2 / nrad delta / (q * DP) = z / n2 / nrad delta / DP.
  Proof.
    replace (q * z / n2 / nrad delta) with (q * (z / n2 / nrad delta)) by (unfold Rdiv; ring). apply quot_q.
  Qed.
  Lemma scale_ok' DP delta z : q * l * z / n2 / nrad delta / (q * DP) = l * (z / n2 / nrad delta / DP).
  Proof.
    replace (q * l * z / n2 / nrad delta) with (q * (l * z / n2 / nrad delta)) by (unfold Rdiv; ring). rewrite quot_q. unfold Rdiv. ring.
  Qed.
  Lemma sim_stability : sim eq (stability_derivatives H) (stability_derivatives H').
  Proof.
    unfold stability_derivatives. apply sim_aero_given. unfold stability_body.
    eapply sim_bind; [apply sim_dyn|]. cbv beta. intros DP DP' ->.
    eapply sim_bind; [apply sim_refs|]. cbv beta. intros r r' ->.
    eapply sim_bind; [apply sim_get; reflexivity|]. cbv beta. intros a0 ? ->.
    eapply sim_bind; [apply sim_around; reflexivity|]. intros x x' Hx.
    apply sim_bind with (RA := eq); [apply sim_set; reflexivity|]. intros _ _ _.
    eapply sim_bind; [apply sim_get; reflexivity|]. cbv beta. intros b0 ? ->.
    eapply sim_bind; [apply sim_around; reflexivity|]. intros y y' Hy.
    apply sim_bind with (RA := eq); [apply sim_set; reflexivity|]. intros _ _ _.
    apply sim_ret. f_equal; symmetry; apply nine_in; auto; intros z; rnum; first [apply scale_ok | apply scale_ok'].
  Qed.
  Lemma sim_control_body : sim eq (control_body H) (control_body H').
  Proof.
    unfold control_body.
    eapply sim_bind; [apply sim_dyn|]. cbv beta. intros DP DP' ->.
    eapply sim_bind; [apply sim_refs|]. cbv beta. intros r r' ->.
    eapply sim_bind; [apply sim_get_ctl|]. intros a0 ? <-.
    eapply sim_bind; [apply sim_around_ctl|]. intros x x' Hx.
    eapply sim_bind; [apply sim_set_ctl|]. intros _ _ _.
    eapply sim_bind; [apply sim_get_ctl|]. intros e0 ? <-.
    eapply sim_bind; [apply sim_around_ctl|]. intros y y' Hy.
    eapply sim_bind; [apply sim_set_ctl|]. intros _ _ _.
    eapply sim_bind; [apply sim_get_ctl|]. intros r0 ? <-.
    eapply sim_bind; [apply sim_around_ctl|]. intros z z' Hz.
    eapply sim_bind; [apply sim_set_ctl|]. intros _ _ _.
    eapply sim_bind; [apply sim_get_ctl|]. intros f0 ? <-.
    eapply sim_bind; [apply sim_around_ctl|]. intros t t' Ht.
    eapply sim_bind; [apply sim_set_ctl|]. intros _ _ _.
    apply sim_ret. repeat (apply f_equal2); symmetry; apply nine_in; auto; intros; rnum; first [apply scale_ok | apply scale_ok'].
  Qed.
  Lemma sim_control : sim eq (control_derivatives H) (control_derivatives H').
  Proof.
    intros w w' R0. pose proof R0 as (a & a' & _ & _ & _ & _ & C & _).
    unfold control_derivatives, ctl_given. rewrite C. destruct (opt_truthy dtruthy (w_ctl w)).
    - exact (sim_control_body w w' R0).
    - exact (sim_with_ctl _ default_ctl _ _ sim_control_body w w' R0).
  Qed.
  Lemma rate_step key d V L : (key = "roll_rate" \/ key = "pitch_rate" \/ key = "yaw_rate") ->
    nmul (nmul d n2) (k * V) / (l * L) = conv key (nmul (nmul d n2) V / L).
  Proof.
    intros K. assert (E : conv key (nmul (nmul d n2) V / L) = k / l * (nmul (nmul d n2) V / L)) by (destruct K as [-> | [-> | ->]]; reflexivity).
    rewrite E. rnum. unfold Rdiv. rewrite Rinv_mult. ring.
  Qed.
  Lemma rate_zero key : (key = "roll_rate" \/ key = "pitch_rate" \/ key = "yaw_rate") -> conv key n0 = n0.
  Proof. intros [-> | [-> | ->]]; unfold entry_in; cbn [String.eqb Ascii.eqb Bool.eqb orb]; rnum; ring. Qed.
  Lemma sim_damping : sim eq (damping_derivatives H) (damping_derivatives H').
  Proof.
    unfold damping_derivatives. apply sim_aero_given. unfold damping_body.
    eapply sim_bind; [apply sim_get_V|]. cbv beta. intros V V' ->.
    eapply sim_bind; [apply sim_get_rho|]. cbv beta. intros rho rho' ->.
    eapply sim_bind; [apply sim_refs|]. cbv beta. intros r r' ->. cbv zeta. cbn [refs_in r_Sw r_lat r_long]. fold (refs_in r).
    eapply sim_bind; [apply sim_get; apply rate_zero; auto|]. cbv beta. intros p0 ? ->.
    eapply sim_bind; [apply sim_around; [reflexivity|apply (rate_step "roll_rate"); auto]|]. intros x x' Hx.
    eapply sim_bind; [apply sim_set; reflexivity|]. intros _ _ _.
    eapply sim_bind; [apply sim_get; apply rate_zero; auto|]. cbv beta. intros q0 ? ->.
    eapply sim_bind; [apply sim_around; [reflexivity|apply (rate_step "pitch_rate"); auto]|]. intros y y' Hy.
    eapply sim_bind; [apply sim_set; reflexivity|]. intros _ _ _.
    eapply sim_bind; [apply sim_get; apply rate_zero; auto|]. cbv beta. intros r0 ? ->.
    eapply sim_bind; [apply sim_around; [reflexivity|apply (rate_step "yaw_rate"); auto]|]. intros z z' Hz.
    eapply sim_bind; [apply sim_set; reflexivity|]. intros _ _ _.
    apply sim_ret.
    assert (E : forall d t, q * t / nmul (nmul n2 d) (nmul (nmul (nmul (nmul (ndec 5 1) (m * rho)) (k * V)) (k * V)) (l * l * r_Sw r))
                = t / nmul (nmul n2 d) (nmul (nmul (nmul (nmul (ndec 5 1) rho) V) V) (r_Sw r))).
    { intros d t. rnum.
      match goal with |- _ / ?X = _ / ?Y => replace X with (q * Y) by (rnum; ring) end. apply quot_q. }
    assert (E' : forall d t, q * l * t / nmul (nmul n2 d) (nmul (nmul (nmul (nmul (ndec 5 1) (m * rho)) (k * V)) (k * V)) (l * l * r_Sw r))
                = l * (t / nmul (nmul n2 d) (nmul (nmul (nmul (nmul (ndec 5 1) rho) V) V) (r_Sw r)))).
    { intros d t. replace (q * l * t) with (q * (l * t)) by ring. rewrite E. unfold Rdiv. ring. }
    change (MkRefs (l * l * r_Sw r) (l * r_lat r) (l * r_long r)) with (refs_in r).
    repeat (apply f_equal2); symmetry; apply nine_in; auto; intros; first [apply E | apply E'].
  Qed.
  Lemma sim_derivatives f : sim eq (derivatives H f) (derivatives H' f).
  Proof.
    unfold derivatives. apply sim_bind with (RA := eq).
    - rewrite Hrefs. case (h_refs H); [intros rr|]; cbn [option_map].
      + eapply sim_bind; [apply sim_stability|]. intros a ? <-.
        apply sim_bind with (RA := eq); [apply sim_lift; destruct (dlookup a "Cm_a"); reflexivity|]. intros ma ? <-.
        apply sim_bind with (RA := eq); [apply sim_lift; destruct (dlookup a "CL_a"); reflexivity|]. intros la ? <-.
        eapply sim_bind; [apply sim_control|]. intros c ? <-.
        eapply sim_bind; [apply sim_damping|]. intros d ? <-. now apply sim_ret.
      + destruct (named f); [now apply sim_ret|apply sim_raise].
    - intros a ? <-. now apply sim_file.
  Qed.

  (** *** target_lift *)
  Lemma sim_lift_loop err f : forall fuel target x0 y0 x1 y1 iters,
    sim eq (lift_loop H fuel target err f x0 y0 x1 y1 iters) (lift_loop H' fuel (q * target) err f x0 (q * y0) x1 (q * y1) iters).
  Proof.
    induction fuel as [|fuel IH]; intros; cbn [lift_loop]; [apply sim_raise|]. rewrite Hparts.
    destruct (negb (h_parts H)); [apply sim_raise|].
    assert (E : nsub x1 (ndiv (nmul (q * y1) (nsub x1 x0)) (nsub (q * y1) (q * y0))) = nsub x1 (ndiv (nmul y1 (nsub x1 x0)) (nsub y1 y0))).
    { rnum. f_equal. rewrite <- Rmult_minus_distr_l, Rmult_assoc. apply quot_q. }
    cbv zeta. rewrite E. set (x2 := nsub x1 _). clearbody x2. clear E.
    destruct (nltb (nabs (nsub x2 x1)) err); [now apply sim_ret|].
    eapply sim_bind; [apply sim_set; reflexivity|]. intros _ _ _.
    eapply sim_bind; [apply sim_solve|]. cbv beta. intros F ? ->.
    destruct (Nat.ltb 20 (Datatypes.S iters)); [destruct (named f); [now apply sim_ret|apply sim_raise]|].
    assert (E : nsub (FL (fm_in m k l F)) (q * target) = q * nsub (FL F) target) by (cbn [fm_in FL]; rnum; ring).
    rewrite E. apply IH.
  Qed.
  Lemma sim_target target f err : sim eq (target_lift H target f err) (target_lift H' (q * target) f err).
  Proof.
    unfold target_lift. apply sim_bind with (RA := eq); [|intros a ? <-; now apply sim_file].
    intros w w' R0. pose proof R0 as (a & a' & E & E' & F & K & _). unfold opt_truthy.
    rewrite E, E', (full_given _ F), (full_given _ (full_in _ _ F K)).
    revert w w' R0 E E'. intros w w' R0 _ _. change (match fst (lift_body H target err f a w), fst (lift_body H' (q * target) err f a' w') with
      | Ok a, Ok b => a = b | Err e, Err e' => e = e' | _, _ => False end /\ RW (snd (lift_body H target err f a w)) (snd (lift_body H' (q * target) err f a' w'))).
    revert w w' R0. change (sim eq (lift_body H target err f a) (lift_body H' (q * target) err f a')).
    unfold lift_body.
    assert (A : dlookup (an a') "alpha" = dlookup (an a) "alpha").
    { unfold dlookup. destruct K as [K _]. rewrite K. destruct (dget (an a) "alpha"); reflexivity. }
    rewrite A. apply sim_bind with (RA := eq); [apply sim_lift; destruct (dlookup (an a) "alpha"); reflexivity|]. intros x0 ? <-. cbv zeta.
    eapply sim_bind; [apply sim_with; [now apply full_set|apply (state_set _ _ "alpha"); exact K|apply sim_solve]|]. cbv beta. intros F0 ? ->.
    apply sim_with; [now apply full_set|apply (state_set _ _ "alpha"); exact K|].
    eapply sim_bind; [apply sim_solve|]. cbv beta. intros F1 ? ->.
    assert (E : forall F, nsub (FL (fm_in m k l F)) (q * target) = q * nsub (FL F) target) by (intros F2; cbn [fm_in FL]; rnum; ring).
    rewrite !E. apply sim_lift_loop.
  Qed.

  (** *** stall_onset *)
  Lemma sim_model : sim Rs (sget (@w_model R S)) (sget (@w_model R S)).
  Proof. intros w w' R0. pose proof R0 as (a & a' & _ & _ & _ & _ & _ & K). split; [exact K|exact R0]. Qed.
  Lemma sim_stall_loop E : forall fuel a, sim (fun i i' => i' = stall_in m k l i) (stall_loop H E fuel a) (stall_loop H' E fuel a).
  Proof.
    induction fuel as [|fuel IH]; intros a; cbn [stall_loop]; [apply sim_raise|].
    eapply sim_bind; [apply sim_set; reflexivity|]. intros _ _ _.
    eapply sim_bind; [apply sim_solve|]. cbv beta. intros F ? ->.
    eapply sim_bind; [apply sim_model|]. intros s s' Hs. rewrite (Hstalled _ _ Hs).
    apply sim_bind with (RA := eq); [apply sim_lift; destruct (h_stalled H s); reflexivity|]. intros [[wing span]|] ? <-; [|apply IH].
    apply sim_ret. reflexivity.
  Qed.
  Definition answer_in {A} (f : A -> A) (x y : answer A) : Prop :=
    y = match x with Answer a => Answer (f a) | ErrorRecord e => ErrorRecord e end.
  Lemma sim_onset E f : sim (answer_in (stall_in m k l)) (stall_onset H E f) (stall_onset H' E f).
  Proof.
    unfold stall_onset. apply sim_bind with (RA := answer_in (stall_in m k l)); [|intros a b K; now apply sim_file].
    rewrite Hrefs. case (h_refs H); [intros rr|]; cbn [option_map].
    - eapply sim_bind; [apply sim_aero_given; unfold onset_body; apply sim_stall_loop|]. cbv beta. intros i ? ->. now apply sim_ret.
    - destruct (named f); [now apply sim_ret|apply sim_raise].
  Qed.

  (** *** find_aero_center *)
  Definition triple_in (x y : R * R * R) : Prop := y = (q * fst (fst x), q * snd (fst x), q * l * snd x).
  Lemma sim_sweep : forall angles, sim (fun xs ys => ys = map (fun x => (q * fst (fst x), q * snd (fst x), q * l * snd x)) xs)
    (sweep H angles) (sweep H' angles).
  Proof.
    induction angles as [|x r IH]; cbn [sweep]; [now apply sim_ret|].
    eapply sim_bind; [apply sim_set; reflexivity|]. intros _ _ _.
    eapply sim_bind; [apply sim_solve|]. cbv beta. intros F ? ->.
    eapply sim_bind; [apply IH|]. cbv beta. intros t ? ->. apply sim_ret. cbn [map fst snd fm_in FZ FX MY].
    apply f_equal2; [|reflexivity]. apply f_equal2; [apply f_equal2|]; rnum; ring.
  Qed.
  Lemma sim_center E : sim (fun v v' => v' = vscale l v) (center_body H E) (center_body H' E).
  Proof.
    unfold center_body. eapply sim_bind; [apply sim_get; reflexivity|]. cbv beta. intros ao ? ->.
    eapply sim_bind; [apply sim_dyn|]. cbv beta. intros DP DP' ->.
    eapply sim_bind; [apply sim_sweep|]. cbv beta. intros t ? ->.
    eapply sim_bind; [apply sim_refs|]. cbv beta. intros r r' ->. cbv zeta. rewrite !map_map. cbn [fst snd refs_in r_long].
    assert (E1 : map (fun x : R * R * R => ndiv (q * fst (fst x)) (q * DP)) t = map (fun x => ndiv (fst (fst x)) DP) t).
    { apply map_ext. intros. apply quot_q. }
    assert (E2 : map (fun x : R * R * R => ndiv (q * snd (fst x)) (q * DP)) t = map (fun x => ndiv (snd (fst x)) DP) t).
    { apply map_ext. intros. apply quot_q. }
    assert (E3 : map (fun x : R * R * R => ndiv (ndiv (q * l * snd x) (q * DP)) (l * r_long r)) t = map (fun x => ndiv (ndiv (snd x) DP) (r_long r)) t).
    { apply map_ext. intros x. rnum. rewrite Rmult_assoc, quot_q. replace (l * snd x / DP) with (l * (snd x / DP)) by (unfold Rdiv; ring). apply quot_l. }
    rewrite E1, E2, E3. clear E1 E2 E3. change (conv "alpha" ao) with ao. rewrite Hcg.
    set (CN := map _ t). set (CA := map _ t). set (Cm := map _ t).
    destruct (lift_fit _ _ _) as [aL0 CLa].
    apply sim_bind with (RA := eq); [apply sim_lift; destruct (drag_fit E _ _); reflexivity|]. intros [[CD0 CD1] CD2] ? <-.
    apply sim_bind with (RA := eq); [apply sim_lift; destruct (moment_fit E _ _ _ _); reflexivity|]. intros [[c0 c1] c2] ? <-.
    apply sim_ret. unfold vscale. cbn [vx vy vz]. apply vec_eq; cbn [vx vy vz]; unfold ac_x, ac_z; rnum; ring.
  Qed.
  Lemma sim_aero_center E f : sim (fun v v' => v' = vscale l v) (find_aero_center H E f) (find_aero_center H' E f).
  Proof.
    unfold find_aero_center. eapply sim_bind; [apply sim_aero_given; apply sim_center|]. cbv beta. intros v ? ->. now apply sim_file.
  Qed.
End Host.

Section Whole.
  Variables (m k l : R).
  Hypothesis Hm : 0 < m.
  Hypothesis Hk : 0 < k.
  Hypothesis Hl : 0 < l.
  Notation q := (m * k ^ 2 * l ^ 2).

  (** *** The object *)
  Lemma widest_in (segs : list (segment R)) : widest (map (segment_in l) segs) = l * widest segs.
  Proof.
    unfold widest. assert (G : forall x : R, fold_left (fun m s => let span := nmul n2 (sg_span s) in if ngtb span m then span else m) (map (segment_in l) segs) (l * x)
      = l * fold_left (fun m s => let span := nmul n2 (sg_span s) in if ngtb span m then span else m) segs x).
    { induction segs as [|s segs IH]; intros x; cbn [map fold_left]; [reflexivity|]. cbv zeta. cbn [segment_in sg_span].
      replace (if ngtb (nmul n2 (l * sg_span s)) (l * x) then nmul n2 (l * sg_span s) else l * x)
        with (l * (if ngtb (nmul n2 (sg_span s)) x then nmul n2 (sg_span s) else x)); [apply IH|].
      unfold ngtb. rnum. destruct (Rltb x (2 * sg_span s)) eqn:A, (Rltb (l * x) (2 * (l * sg_span s))) eqn:B; try ring.
      - apply Rltb_true in A. apply Rltb_false in B. exfalso. assert (l * x < l * (2 * sg_span s)) by (now apply Rmult_lt_compat_l). lra.
      - apply Rltb_false in A. apply Rltb_true in B. exfalso. assert (l * (2 * sg_span s) <= l * x) by (apply Rmult_le_compat_l; lra). lra. }
    replace (n0 : R) with (l * n0) at 1 by (rnum; ring). apply G.
  Qed.
  Lemma sw_div a b : l * l * a / (l * b) = l * (a / b).
  Proof. rewrite Rmult_assoc. rewrite (quot_l l Hl). unfold Rdiv. ring. Qed.
  Variable u : option string.
  Lemma make_refs_in pl g : make_refs (plane_in l u pl) (grid_in l g) = refs_in l (make_refs pl g).
  Proof.
    unfold make_refs. cbn [plane_in a_lat_ref a_long_ref grid_in g_ref_area g_segments]. rewrite widest_in.
    destruct (a_lat_ref pl), (a_long_ref pl); cbn [option_map]; unfold refs_in; cbn [r_Sw r_lat r_long]; change (@ndiv R Rnum) with Rdiv; rewrite ?sw_div; reflexivity.
  Qed.
  Definition machup_in (X : machup R) : machup R :=
    MkMU (option_map (grid_in l) (mm_grid X)) (option_map (refs_in l) (mm_refs X)) (map (pgeom_in l u) (mm_props X)) (mm_points X) (vscale l (mm_cg X)).
  Lemma make_machup_in E pl :
    make_machup E (plane_in l u pl) = match make_machup E pl with Ok X => Ok (machup_in X) | Err e => Err e end.
  Proof.
    unfold make_machup. change (a_wings (plane_in l u pl)) with (a_wings pl).
    change (a_cg (plane_in l u pl)) with (vscale l (a_cg pl)).
    assert (G : match a_wings pl with [] => Ok None | _ => rlet g := make_grid true (plane_in l u pl) in Ok (Some g) end
      = match (match a_wings pl with [] => Ok None | _ => rlet g := make_grid true pl in Ok (Some g) end) with Ok o => Ok (option_map (grid_in l) o) | Err e => Err e end).
    { destruct (a_wings pl); [reflexivity|]. rewrite (make_grid_in l u Hl). destruct (make_grid true pl); reflexivity. }
    rewrite G. clear G. destruct (match a_wings pl with [] => _ | _ => _ end) as [o|e]; cbn [rbind]; [|reflexivity].
    set (pts := option_map (fun g => map (@s_r R) (g_sections g)) o).
    assert (Ep : option_map (fun g => map (@s_r R) (g_sections g)) (option_map (grid_in l) o) = option_map (map (vscale l)) pts).
    { unfold pts. destruct o as [g|]; cbn [option_map grid_in g_sections]; [|reflexivity]. rewrite !map_map. reflexivity. }
    rewrite Ep. pose proof (make_props_in l Hl (me_prop E) u pl pts) as P.
    assert (G : match a_props (plane_in l u pl) with [] => Ok [] | _ => make_props (me_prop E) (plane_in l u pl) (option_map (map (vscale l)) pts) end
      = match (match a_props pl with [] => Ok [] | _ => make_props (me_prop E) pl pts end) with Ok gs => Ok (map (pgeom_in l u) gs) | Err e => Err e end).
    { cbn [plane_in a_props]. destruct (a_props pl); [reflexivity|]. cbn [map].
      destruct (make_props (me_prop E) pl pts), (make_props (me_prop E) (plane_in l u pl) (option_map (map (vscale l)) pts)); try contradiction; now subst. }
    rewrite G. clear G P. destruct (match a_props pl with [] => _ | _ => _ end) as [gs|e]; cbn [rbind]; [|reflexivity].
    unfold machup_in. cbn [mm_grid mm_refs mm_props mm_points mm_cg]. do 2 f_equal.
    - destruct o; cbn [option_map]; [|reflexivity]. now rewrite make_refs_in.
    - unfold pts. destruct o; cbn [option_map]; [|reflexivity]. now rewrite !map_length.
  Qed.
  Lemma machup_shape E pl X : make_machup E pl = Ok X -> forall g, mm_grid X = Some g -> g_num g = List.length (g_sections g).
  Proof.
    unfold make_machup. intros K g0 G0.
    destruct (match a_wings pl with [] => _ | _ => _ end) as [o|e] eqn:G; cbn [rbind] in K; [|discriminate].
    destruct (match a_props pl with [] => _ | _ => _ end) as [gs|e]; cbn [rbind] in K; [|discriminate]. injection K as <-. cbn [mm_grid] in G0. subst o.
    destruct (a_wings pl); [discriminate|]. destruct (make_grid true pl) as [g|e] eqn:G1; cbn [rbind] in G; [|discriminate]. injection G as ->.
    exact (grid_num true pl g0 G1).
  Qed.

  (** *** Its solve *)
  Variables (E : menv R) (X : machup R).
  Hypothesis He : exact_solver (me_lsolve E).
  Hypothesis Hg : forall g, mm_grid X = Some g -> g_num g = List.length (g_sections g).
  Definition Rany (Rp : pstate R -> pstate R -> Prop) (s s' : mstate R) : Prop :=
    ll_rel m k l (m_ll s) (m_ll s') /\ List.length (m_ps s) = List.length (mm_props X) /\ Forall2 Rp (m_ps s) (m_ps s').
  Notation Rm := (Rany weak).
  Notation Rs := (Rany (strong m k l)).
  Lemma strong_Rm s s' : Rs s s' -> Rm s s'.
  Proof. intros (A & B & C). split; [exact A|]. split; [exact B|]. clear - C. induction C; constructor; auto. now apply strong_weak in H. Qed.
  Variable ps : option (dict (pval R)).
  Hypothesis Hps : speeds_given ps.
  Notation ps' := (option_map (prop_state_in k l) ps).
  Notation H := (host_of E X ps).
  Notation H' := (host_of E (machup_in X) ps').
  Lemma add_fm_in a b : add_fm (fm_in m k l a) (fm_in m k l b) = fm_in m k l (add_fm a b).
  Proof. unfold add_fm, fm_in. cbn [FL FD FS FX FY FZ MX MY MZ]. rnum. f_equal; ring. Qed.
  Lemma zero_fm_in : zero_fm = fm_in m k l (zero_fm : fm R).
  Proof. unfold zero_fm, fm_in. cbn [FL FD FS FX FY FZ MX MY MZ]. rnum. f_equal; ring. Qed.
  Lemma full_to_given a : full a -> given_aero (Some a).
  Proof. intros [F _]. exists a. split; [reflexivity|]. left. intros Q. rewrite Q in F. now apply F. Qed.
  Definition run_wings (X : machup R) (c : option (dict R)) (pr : option (@prop_total R)) (a : aero_state R) (s : mstate R)
    : res (option (ll_results R) * option (@prop_total R) * fm R) * aero_state R * mstate R :=
    match mm_grid X with
    | None => (Ok (None, pr, add_fm (match pr with Some p => pt_fm p | None => zero_fm end) zero_fm), a, s)
    | Some g =>
        match ll_solve (me_lsolve E) g (mm_cg X) "linear" (Some a) c (m_ll s) with
        | (Err e, l) => (Err e, a, MkM l (m_ps s))
        | (Ok r, l) =>
            match read_ref l r with
            | None => (Err AttributeError, a, MkM l (m_ps s))
            | Some w => (Ok (Some w, pr, add_fm (match pr with Some p => pt_fm p | None => zero_fm end) (r_total w)), a, MkM l (m_ps s))
            end
        end
    end.
  Lemma parts_eq (Y : machup R) p a c s : solve_parts E Y p a c s =
    match mm_props Y with
    | [] => run_wings Y c None a s
    | gs => match props_solve (me_prop E) (mm_cg Y) (mm_points Y) (Some a) p gs (m_ps s) with
            | (Err e, ss) => (Err e, a, MkM (m_ll s) ss)
            | (Ok (pt, rows), ss) => run_wings Y c (Some pt) (match rows with Some r => set_local a r | None => a end) (MkM (m_ll s) ss)
            end
    end.
  Proof. reflexivity. Qed.
  Definition outcome (Rok : mstate R -> mstate R -> Prop)
    (x y : res (option (ll_results R) * option (@prop_total R) * fm R) * aero_state R * mstate R) : Prop :=
    match fst (fst x), fst (fst y) with
    | Ok v, Ok w => snd w = fm_in m k l (snd v) /\ Rok (snd x) (snd y)
    | Err e, Err e' => e = e'
    | _, _ => False
    end /\ full (snd (fst x)) /\ state_in m k l (snd (fst x)) (snd (fst y)) /\ Rm (snd x) (snd y).
  Lemma wings_in c pr pr' a a' s s' : full a -> state_in m k l a a' -> Rs s s' ->
    match pr, pr' with Some t, Some t' => total_in m k l t t' | None, None => True | _, _ => False end ->
    outcome Rs (run_wings X c pr a s) (run_wings (machup_in X) c pr' a' s').
  Proof.
    intros F K R0 P. unfold run_wings. cbn [machup_in mm_grid mm_cg]. unfold outcome.
    assert (T : match pr' with Some p => pt_fm p | None => zero_fm end = fm_in m k l (match pr with Some p => pt_fm p | None => zero_fm end)).
    { destruct pr, pr'; try contradiction; [exact (proj1 P)|exact zero_fm_in]. }
    destruct (mm_grid X) as [g|] eqn:Eg; cbn [option_map].
    2:{ cbn [fst snd]. split; [|split; [exact F|split; [exact K|now apply strong_Rm]]]. split; [|exact R0]. rewrite T, zero_fm_in, add_fm_in, <- zero_fm_in. reflexivity. }
    pose proof R0 as (R1 & R2 & R3).
    pose proof (ll_solve_in m k l Hk Hl (me_lsolve E) g (mm_cg X) "linear" a a' c (m_ll s) (m_ll s') He (Hg g eq_refl) (full_to_given a F) K R1) as Q.
    cbv zeta in Q. destruct Q as (Q1 & Q2 & Q3).
    destruct (ll_solve (me_lsolve E) g (mm_cg X) "linear" (Some a) c (m_ll s)) as [r t],
             (ll_solve (me_lsolve E) (grid_in l g) (vscale l (mm_cg X)) "linear" (Some a') c (m_ll s')) as [r' t'].
    cbn [fst snd] in Q1, Q2, Q3. subst r'.
    assert (S1 : Rs (MkM t (m_ps s)) (MkM t' (m_ps s'))) by (split; [exact Q2|]; split; assumption).
    pose proof (strong_Rm _ _ S1) as S2.
    destruct r as [r|e]; [|cbn [fst snd]; auto].
    destruct (Q3 r eq_refl) as (x & x' & X1 & X2 & _ & _ & X3). unfold read_ref. destruct r. rewrite X1, X2. cbn [fst snd].
    split; [|auto]. split; [|exact S1]. rewrite X3, T, add_fm_in. reflexivity.
  Qed.
  Lemma parts_in a a' c s s' : full a -> state_in m k l a a' -> Rm s s' ->
    outcome Rs (solve_parts E X ps a c s) (solve_parts E (machup_in X) ps' a' c s').
  Proof.
    intros F K R0. rewrite !parts_eq. cbn [machup_in mm_props mm_cg mm_points]. pose proof R0 as (R1 & R2 & R3).
    destruct (mm_props X) as [|g gs] eqn:Eg.
    { cbn [map]. apply wings_in; auto. split; [exact R1|]. rewrite Eg. split; [exact R2|].
      destruct R3; [constructor|discriminate R2]. }
    pose proof (props_solve_in m k l u Hk Hl (me_prop E) (mm_cg X) (mm_points X) a a' ps (g :: gs) (m_ps s) (m_ps s') F K Hps R3 R2) as P.
    cbv zeta in P. cbn [map] in *.
    destruct (props_solve (me_prop E) (mm_cg X) (mm_points X) (Some a) ps (g :: gs) (m_ps s)) as [[[pt rows]|e] t],
      (props_solve (me_prop E) (vscale l (mm_cg X)) (mm_points X) (Some a') ps' (pgeom_in l u g :: map (pgeom_in l u) gs) (m_ps s')) as [[[pt' rows']|e'] t'];
      cbn [fst snd] in P; destruct P as (P1 & P2 & P3); try contradiction.
    - destruct P3 as (T & -> & P3). apply wings_in.
      + destruct rows; exact F.
      + destruct rows as [r|]; cbn [option_map]; [|exact K]. destruct K as [K _]. split; [exact K|reflexivity].
      + split; [exact R1|]. rewrite Eg. split; [exact P2|exact P3].
      + exact T.
    - unfold outcome. cbn [fst snd]. split; [exact P3|]. split; [exact F|]. split; [exact K|]. split; [exact R1|]. rewrite Eg. split; [exact P2|exact P1].
  Qed.
  Lemma host_solve_strong a a' c s s' : full a -> state_in m k l a a' -> Rm s s' ->
    fst (fst (h_solve H' a' c s')) = rmapf (fm_in m k l) (fst (fst (h_solve H a c s))) /\
    full (snd (fst (h_solve H a c s))) /\ state_in m k l (snd (fst (h_solve H a c s))) (snd (fst (h_solve H' a' c s'))) /\
    Rm (snd (h_solve H a c s)) (snd (h_solve H' a' c s')) /\
    ((exists x, fst (fst (h_solve H a c s)) = Ok x) -> Rs (snd (h_solve H a c s)) (snd (h_solve H' a' c s'))).
  Proof.
    intros Ga Hs Hr. pose proof (parts_in a a' c s s' Ga Hs Hr) as (P1 & P2 & P3 & P4). cbn [host_of h_solve].
    destruct (solve_parts E X ps a c s) as [[r b] t], (solve_parts E (machup_in X) ps' a' c s') as [[r' b'] t'].
    cbn [fst snd] in *. destruct r as [x|e], r' as [y|e']; cbn [rbind rmapf]; try contradiction.
    - destruct P1 as [P1 P5]. rewrite P1. auto 10.
    - rewrite P1. split; [reflexivity|]. split; [exact P2|]. split; [exact P3|]. split; [exact P4|]. intros [x Q]. discriminate Q.
  Qed.
  Lemma host_solve a a' c s s' : full a -> state_in m k l a a' -> Rm s s' ->
    fst (fst (h_solve H' a' c s')) = rmapf (fm_in m k l) (fst (fst (h_solve H a c s))) /\
    full (snd (fst (h_solve H a c s))) /\ state_in m k l (snd (fst (h_solve H a c s))) (snd (fst (h_solve H' a' c s'))) /\
    Rm (snd (h_solve H a c s)) (snd (h_solve H' a' c s')).
  Proof. intros F K R0. destruct (host_solve_strong a a' c s s' F K R0) as (A & B & C & D & _). auto. Qed.
  Lemma host_refs : h_refs H' = option_map (refs_in l) (h_refs H).
  Proof. reflexivity. Qed.
  Lemma host_parts : h_parts H' = h_parts H.
  Proof. clear Hg. cbn [host_of h_parts machup_in mm_grid mm_props]. destruct (mm_grid X), (mm_props X); reflexivity. Qed.
  Lemma host_cg : h_cg H' = vscale l (h_cg H).
  Proof. reflexivity. Qed.
  Lemma stalled_in secs : forall cl : list R, first_stalled (map (sec_in l) secs) cl = first_stalled secs cl.
  Proof.
    induction secs as [|s secs IH]; intros [|c cl]; cbn [map first_stalled]; auto. rewrite IH. reflexivity.
  Qed.
  Lemma host_stalled s s' : Rm s s' -> h_stalled H' s' = h_stalled H s.
  Proof.
    clear Hg. intros ((_ & _ & _ & _ & R5 & _) & _). cbn [host_of h_stalled machup_in mm_grid]. destruct (mm_grid X) as [g|]; [|reflexivity].
    cbn [option_map]. unfold find_stall_location. rewrite R5. destruct (l_cl (m_ll s)); [|reflexivity].
    cbn [grid_in g_sections]. now rewrite stalled_in.
  Qed.
  Notation SIM := (sim m k l (mstate R) Rm).

  Lemma sim_mu_solve : SIM (fun f f' => f' = fm_in m k l f) (mu_solve E X ps None) (mu_solve E (machup_in X) ps' None).
  Proof.
    intros w w' (a & a' & A & A' & F & K & C & R0). unfold mu_solve, opt_truthy.
    rewrite A, A', (full_given _ F), (full_given _ (full_in m k l _ _ F K)), C.
    pose proof (parts_in a a' (w_ctl w) (w_model w) (w_model w') F K R0) as (P1 & P2 & P3 & P4).
    destruct (solve_parts E X ps a (w_ctl w) (w_model w)) as [[r b] t],
             (solve_parts E (machup_in X) ps' a' (w_ctl w) (w_model w')) as [[r' b'] t'].
    cbn [fst snd] in *. unfold write_if, named, sbind, sret.
    destruct r as [[[? ?] tot]|e], r' as [[[? ?] tot']|e']; try contradiction; cbn [fst snd] in *;
      (split; [first [exact (proj1 P1) | exact P1]|]; exists b, b'; cbn [w_aero w_ctl w_model]; auto 10).
  Qed.

  (** *** The table *)
  Lemma rows_in secs : forall al f cl cm cd : list _,
    dist_rows (map (sec_in l) secs) al (map (vscale q) f) cl cm cd
    = map (fun d => MkDist (d_name d) (vscale l (d_cp d)) (l * d_chord d) (d_twist d) (d_dihedral d) (d_sweep d) (l ^ 2 * d_area d)
                 (d_alpha d) (vscale q (d_force d)) (d_cl d) (d_cm d) (d_cd d) (d_al0 d)) (dist_rows secs al f cl cm cd).
  Proof.
    induction secs as [|s secs IH]; intros [|a al] [|f0 f] [|c cl] [|cm0 cm] [|d cd]; cbn [map dist_rows]; auto.
    rewrite IH. cbn [d_name d_cp d_chord d_twist d_dihedral d_sweep d_area d_alpha d_force d_cl d_cm d_cd d_al0]. apply f_equal2; [|reflexivity].
    cbn [sec_in s_name s_r s_c s_dihedral s_sweep s_dS s_al0]. change (s_twist (sec_in l s)) with (s_twist s).
    replace (l ^ 2 * s_dS s) with (l * l * s_dS s) by ring. reflexivity.
  Qed.
  Lemma wing_rows_in g r s s' : Rs s s' ->
    wing_rows (grid_in l g) (refs_in l r) (m_ll s') = rmapf (map (wing_row_in m k l)) (wing_rows g r (m_ll s)).
  Proof.
    intros ((_ & _ & R3 & R4 & R5 & R6 & R7) & _). unfold wing_rows, ll_distributions. rewrite R3, R4, R5, R6, R7.
    destruct (l_alphas (m_ll s)); [|reflexivity]. destruct (l_forces (m_ll s)); [|reflexivity]. cbn [option_map].
    destruct (l_cl (m_ll s)); [|reflexivity]. destruct (l_cm (m_ll s)); [|reflexivity]. destruct (l_cd (m_ll s)); [|reflexivity].
    cbn [rbind rmapf grid_in g_sections]. rewrite rows_in, !map_map. f_equal. apply map_ext. intros d. unfold wing_row_in.
    cbn [wr_row wr_cl_ref d_name d_cp d_chord d_twist d_dihedral d_sweep d_area d_alpha d_force d_cl d_cm d_cd d_al0 refs_in r_long].
    rnum. replace (d_cl d * (l * d_chord d)) with (l * (d_cl d * d_chord d)) by ring. rewrite (quot_l l Hl). reflexivity.
  Qed.
  (** after a solve that returns, the propellers agree entirely *)
  Lemma sim_after {A B} (RA : A -> B -> Prop) (p : st _ A) (p' : st _ B) : sim m k l (mstate R) Rs RA p p' ->
    SIM RA (do_solve H ;;; p) (do_solve H' ;;; p').
  Proof.
    intros P w w' (a & a' & A0 & A' & F & K & C & R0).
    assert (G : aero_given w = true) by (unfold aero_given, opt_truthy; now rewrite A0, (full_given _ F)).
    assert (G' : aero_given w' = true).
    { unfold aero_given, opt_truthy. rewrite A', (full_given _ (full_in m k l _ _ F K)). reflexivity. }
    unfold sbind, do_solve. rewrite G, G'. unfold raw_solve. rewrite A0, A', C.
    pose proof (host_solve_strong a a' (w_ctl w) (w_model w) (w_model w') F K R0) as (A1 & A2 & A3 & A4 & A5).
    destruct (h_solve H a (w_ctl w) (w_model w)) as [[r b] t], (h_solve H' a' (w_ctl w) (w_model w')) as [[r' b'] t'].
    cbn [fst snd] in *. subst r'. destruct r as [x|e]; cbn [rmapf].
    - match goal with |- context [fst (p ?v)] => match goal with |- context [fst (p' ?v')] => specialize (P v v') end end.
      destruct P as [P1 P2].
      { exists b, b'. cbn [w_aero w_ctl w_model]. repeat (split; [auto; fail|]). apply A5. exists x. reflexivity. }
      split; [exact P1|]. destruct P2 as (d & d' & Q1 & Q2 & Q3 & Q4 & Q5 & Q6). exists d, d'. repeat (split; [assumption|]). now apply strong_Rm.
    - cbn [fst snd]. split; [reflexivity|]. exists b, b'. cbn [w_aero w_ctl w_model]. auto 10.
  Qed.
  Lemma Vi_strong gs : forall ss ss', Forall2 (strong m k l) ss ss' ->
    Forall2 (strong m k l) (map2 (fun g s => find_Vi (pg_stations g) s) gs ss) (map2 (fun g s => find_Vi (pg_stations g) s) (map (pgeom_in l u) gs) ss').
  Proof.
    induction gs as [|g gs IH]; intros ss ss' K; cbn [map map2]; [constructor|]. destruct K as [|s s' ss ss' K0 K]; constructor; [|now apply IH].
    apply (find_Vi_in m k l u Hl). exact (proj1 K0).
  Qed.
  Lemma map2_len {A B C} (f : A -> B -> C) xs : forall ys, List.length ys = List.length xs -> List.length (map2 f xs ys) = List.length xs.
  Proof. induction xs as [|x xs IH]; intros [|y ys] L; cbn [map2 List.length] in *; try discriminate; auto. Qed.
  Lemma sim_distributions : SIM (fun x y => y = (map (wing_row_in m k l) (fst x), map (blade_row_in k l) (snd x)))
    (distributions E X ps 0 None) (distributions E (machup_in X) ps' 0 None).
  Proof.
    unfold distributions. apply sim_after.
    eapply sim_bind; [apply sim_model|]. intros s s' Hs.
    apply sim_bind with (RA := fun x y => y = map (wing_row_in m k l) x).
    - cbn [machup_in mm_grid mm_refs]. destruct (mm_grid X) as [g|]; [|now apply sim_ret]. destruct (mm_refs X) as [r|]; [|now apply sim_ret].
      cbn [option_map]. rewrite (wing_rows_in g r s s' Hs). apply sim_lift. destruct (wing_rows g r (m_ll s)); reflexivity.
    - intros rows ? ->. apply sim_bind with (RA := fun x y => y = map (blade_row_in k l) x).
      + intros w w' (a & a' & A0 & A' & F & K & C & (R1 & R2 & R3)). cbn [machup_in mm_props].
        destruct (mm_props X) as [|g gs] eqn:Eg; cbn [map].
        * cbn [fst snd]. split; [reflexivity|]. exists a, a'. unfold Rany. rewrite Eg. auto 10.
        * change (pgeom_in l u g :: map (pgeom_in l u) gs) with (map (pgeom_in l u) (g :: gs)). set (G := g :: gs) in *. clearbody G. cbv zeta. cbn [fst snd].
          split; [exact (prop_distributions_in m k l u Hl G _ _ R3)|]. exists a, a'. cbn [w_aero w_ctl w_model].
          do 5 (split; [assumption|]). unfold Rany. cbn [m_ll m_ps]. rewrite Eg. split; [exact R1|]. split; [now apply map2_len|now apply Vi_strong].
      + intros b ? ->. unfold named. eapply sim_bind; [now apply sim_ret|]. intros ? ? _. now apply sim_ret.
  Qed.
End Whole.

Section Session.
  Variables (m k l : R).
  Variable u : option string.
  Hypothesis Hm : 0 < m.
  Hypothesis Hk : 0 < k.
  Hypothesis Hl : 0 < l.
  Variables (E : menv R) (X : machup R).
  Hypothesis He : exact_solver (me_lsolve E).
  Hypothesis Hg : forall g, mm_grid X = Some g -> g_num g = List.length (g_sections g).
  Notation Rm := (Rany m k l X weak).
  Notation SIM := (sim m k l (mstate R) Rm).
  Notation X' := (machup_in l u X).

  (** *** A session *)
  Lemma ask_in {A} (f : A -> reply) (RA : A -> A -> Prop) p p' i i' s s' :
    SIM RA p p' -> (forall x y, RA x y -> f y = reply_in m k l (f x)) -> inputs_in m k l i i' -> Rm s s' ->
    fst (ask f p' i' s') = same_outcome m k l (fst (ask f p i s)) /\ Rm (snd (ask f p i s)) (snd (ask f p' i' s')).
  Proof.
    destruct i as [[a c] ps], i' as [[a' c'] ps']. intros P K (F & Hs & -> & _) R0.
    assert (Q : RW m k l (mstate R) Rm (MkW (Some a) c s [] []) (MkW (Some a') c s' [] [])).
    { exists a, a'. cbn [w_aero w_ctl w_model]. auto 10. }
    specialize (P _ _ Q). unfold ask. cbn [fst snd].
    destruct (p (MkW (Some a) c s [] [])) as [[x|e] v], (p' (MkW (Some a') c s' [] [])) as [[y|e'] v']; cbn [fst snd] in *;
      destruct P as [P (? & ? & _ & _ & _ & _ & _ & R1)]; try contradiction; (split; [|exact R1]); cbn [same_outcome].
    - f_equal. now apply K.
    - congruence.
  Qed.
  Lemma serve_in r r' s s' : request_in m k l r r' -> Rm s s' ->
    fst (serve E X' r' s') = same_outcome m k l (fst (serve E X r s)) /\
    Rm (snd (serve E X r s)) (snd (serve E X' r' s')).
  Proof.
    intros K R0.
    assert (J : forall i i', inputs_in m k l i i' -> speeds_given (snd i) /\ snd i' = option_map (prop_state_in k l) (snd i)).
    { intros [[? ?] ?] [[? ?] ?] (_ & _ & _ & A & B). auto. }
    destruct K as [i i' K|i i' K|i i' K|i i' K|i i' K|t e i i' K|i i' K|i i' K|i i' K]; cbn [serve]; destruct (J i i' K) as [Hs Ei]; rewrite Ei;
      pose proof (host_solve m k l Hk Hl u E X He Hg (snd i) Hs) as HS.
    - apply (ask_in _ _ _ _ _ _ _ _ (sim_mu_solve m k l Hk Hl u E X He Hg (snd i) Hs)); auto. intros x y ->. reflexivity.
    - apply (ask_in _ _ _ _ _ _ _ _ (sim_stability m k l _ _ _ Rm Hm Hk Hl HS (host_refs k l u E X (snd i)))); auto. intros x y <-. reflexivity.
    - apply (ask_in _ _ _ _ _ _ _ _ (sim_control m k l _ _ _ Rm Hm Hk Hl HS (host_refs k l u E X (snd i)))); auto. intros x y <-. reflexivity.
    - apply (ask_in _ _ _ _ _ _ _ _ (sim_damping m k l _ _ _ Rm Hm Hk Hl HS (host_refs k l u E X (snd i)))); auto. intros x y <-. reflexivity.
    - apply (ask_in _ _ _ _ _ _ _ _ (sim_derivatives m k l _ _ _ Rm Hm Hk Hl HS (host_refs k l u E X (snd i)) None)); auto. intros x y <-. reflexivity.
    - apply (ask_in _ _ _ _ _ _ _ _ (sim_target m k l _ _ _ Rm Hm Hk Hl HS (host_parts k l u E X (snd i)) t None e)); auto. intros x y <-. reflexivity.
    - apply (ask_in _ _ _ _ _ _ _ _ (sim_onset m k l _ _ _ Rm HS (host_refs k l u E X (snd i)) (host_stalled m k l u E X (snd i)) E None)); auto.
      intros x y ->. destruct x; reflexivity.
    - apply (ask_in _ _ _ _ _ _ _ _ (sim_aero_center m k l _ _ _ Rm Hm Hk Hl HS (host_refs k l u E X (snd i)) (host_cg k l u E X (snd i)) E None)); auto. intros x y ->. reflexivity.
    - apply (ask_in _ _ _ _ _ _ _ _ (sim_distributions m k l Hk Hl u E X He Hg (snd i) Hs)); auto. intros [x b] y ->. reflexivity.
  Qed.
  Lemma session_in rs rs' : Forall2 (request_in m k l) rs rs' -> forall s s', Rm s s' ->
    session E X' s' rs' = map (same_outcome m k l) (session E X s rs).
  Proof.
    induction 1 as [|r r' rs rs' K Ks IH]; intros s s' R0; cbn [session map]; [reflexivity|].
    pose proof (serve_in r r' s s' K R0) as [P1 P2].
    destruct (serve E X r s) as [x t], (serve E X' r' s') as [x' t']. cbn [fst snd] in *. subst x'.
    cbn [map]. rewrite (IH t t' P2). reflexivity.
  Qed.
  Lemma init_in : Rm (init_mstate X) (init_mstate X').
  Proof.
    clear Hg. unfold init_mstate. split; [|split]; cbn [m_ll m_ps machup_in mm_grid mm_props].
    - destruct (mm_grid X); cbn [option_map grid_in g_num]; unfold ll_rel, init_ll;
        cbn [l_delta l_eff l_alphas l_forces l_cl l_cd l_cm option_map]; auto 10.
    - apply map_length.
    - induction (mm_props X) as [|g gs IH]; cbn [map]; constructor; [|exact IH].
      unfold weak, init_pstate. cbn [p_clock p_ei pgeom_in pg_stations]. rewrite map_length. auto.
  Qed.
End Session.

Lemma unit_free (m k l : R) (u : option string) E pl rs rs' : 0 < m -> 0 < k -> 0 < l -> exact_solver (me_lsolve E) ->
  Forall2 (request_in m k l) rs rs' ->
  match make_machup E pl, make_machup E (plane_in l u pl) with
  | Ok X, Ok X' => session E X' (init_mstate X') rs' = map (same_outcome m k l) (session E X (init_mstate X) rs)
  | Err e, Err e' => e = e'
  | _, _ => False
  end.
Proof.
  intros Hm Hk Hl He K. rewrite (make_machup_in l Hl u E pl). destruct (make_machup E pl) as [X|e] eqn:Em; [|reflexivity].
  apply (session_in m k l u Hm Hk Hl E X He (machup_shape E pl X Em) rs rs' K). apply init_in.
Qed.
