(** stall_onset (C45), stall_airspeed (C46). *)
From Coq Require Import Reals ZArith String Bool Arith Lia Lra List.
From Verif Require Import Base Num RVec Geometry Grid LLModel PropModel Spec_Grid Spec_LL LL_state LL_R MU Spec_MU MU_thm MU_thm2 MU_thm3 MU_thm5 MU_thm8 MU_thm9.
Import ListNotations.
Local Open Scope string_scope.

Section Generic.
  Context {T : Type} {N : num_ops T} {S : Type}.
  Variable H : host T S.
  Variable E : menv T.
  Notation W := (world T S).
  Hypothesis keeps : forall a c s r a' s', h_solve H a c s = (r, a', s') ->
    an a' = an a /\ (als a <> None -> als a' <> None).

  (** the scan started at [tenths m] *)
  Definition scan_from (m : nat) (d : dict T) (c : option (dict T)) (l : list (call T S)) (i : stall_info T) : Prop :=
    (forall j k, nth_error l j = Some k -> exists f, solved_at k (dset d "alpha" (tenths (m + j))) c f) /\
    (forall j k, nth_error l j = Some k -> (Datatypes.S j < List.length l)%nat -> h_stalled H (k_after k) = Ok None) /\
    exists n k f, List.length l = Datatypes.S n /\ nth_error l n = Some k /\ k_r k = Ok f /\
      h_stalled H (k_after k) = Ok (Some (si_wing i, si_span i)) /\
      si_lift i = FL f /\ si_alpha i = me_round2 E (tenths (m + n)).

  Lemma stall_loop_ok fuel : forall m (w : W) i w' a base,
    stall_loop H E fuel (tenths m) w = (Ok i, w') -> w_aero w = Some a -> dset (an a) "alpha" (tenths m) = dset base "alpha" (tenths m) ->
    si_airspeed i = None /\ exists l n a', scan_from m base (w_ctl w) l i /\ List.length l = Datatypes.S n /\
      w' = MkW (Some a') (w_ctl w) (w_model w') (w_files w) (w_log w ++ l) /\ an a' = dset base "alpha" (tenths (m + n)).
  Proof.
    induction fuel as [|fuel IH]; intros m w i w' a base K Ea Ab; [discriminate|].
    cbn [stall_loop] in K. rewrite (sbind_run _ _ _ _ _ (set_aero_run _ _ _ _ Ea)) in K. rewrite Ab in K.
    apply sbind_ok in K. destruct K as (f & w1 & K1 & K).
    match type of K1 with do_solve H ?v = _ =>
      destruct (do_solve_run H keeps v _ _ (MkAero (dset base "alpha" (tenths m)) (als a)) K1 eq_refl) as (a1 & A1 & A1' & A2 & A3) end.
    { left. cbn. apply dset_nil. }
    clear K1. cbn [w_ctl w_model w_files w_log an] in A1, A2, A3.
    rewrite (sbind_run (sget (@w_model T S)) _ _ (w_model w1) w1 eq_refl) in K.
    apply sbind_ok in K. destruct K as (info & w2 & K1 & K).
    assert (Q : w2 = w1 /\ h_stalled H (w_model w1) = Ok info).
    { unfold slift in K1. destruct (h_stalled H (w_model w1)); [|discriminate]. injection K1 as -> ->. auto. }
    destruct Q as [-> Hst]. clear K1.
    set (k1 := MkCall (MkAero (dset base "alpha" (tenths m)) (als a)) (w_ctl w) (Ok f) (w_model w1)) in *.
    destruct info as [[wing span]|].
    - injection K as <- <-. split; [reflexivity|]. exists [k1], 0%nat, a1.
      split; [|split; [reflexivity|split; [exact A3|now rewrite Nat.add_0_r]]].
      split; [|split].
      + intros [|[|j]] k Hk; try discriminate. injection Hk as <-. exists f. rewrite Nat.add_0_r. repeat split.
      + intros j k Hk Hj. cbn in Hj. lia.
      + exists 0%nat, k1, f. rewrite Nat.add_0_r. repeat split. exact Hst.
    - change (nadd (tenths m) (ndec 1 1)) with (tenths (Datatypes.S m)) in K.
      destruct (IH (Datatypes.S m) w1 i w' a1 base K) as (Q & l & n & a' & (S1 & S2 & n' & k & f' & S3 & S4 & S5 & S6 & S7 & S8) & L & Ew & Ea').
      { now rewrite A3. } { now rewrite A1, dset_twice. }
      split; [exact Q|]. exists (k1 :: l), (Datatypes.S n), a'.
      assert (Ec1 : w_ctl w1 = w_ctl w) by now rewrite A3. assert (Ef1 : w_files w1 = w_files w) by now rewrite A3.
      assert (El1 : w_log w1 = (w_log w ++ [k1])%list) by now rewrite A3.
      rewrite Ec1, Ef1, El1 in *. rewrite <- app_assoc in Ew. cbn [app] in Ew.
      split; [|split; [cbn; now rewrite L|split; [exact Ew|now rewrite <- plus_n_Sm]]].
      split; [|split].
      + intros [|j] k0 Hk; [injection Hk as <-; exists f; rewrite Nat.add_0_r; repeat split|].
        rewrite <- plus_n_Sm. exact (S1 j k0 Hk).
      + intros [|j] k0 Hk Hj; [injection Hk as <-; exact Hst|]. apply (S2 j k0 Hk). cbn in Hj. lia.
      + exists (Datatypes.S n'), k, f'. cbn [List.length nth_error]. rewrite <- plus_n_Sm. rewrite S3. auto 7.
  Qed.

  Lemma quiet_stall fuel : forall x, quiet (stall_loop H E fuel x).
  Proof.
    induction fuel as [|fuel IH]; intros x; [intros w; reflexivity|]. cbn [stall_loop].
    apply quiet_bind; [intros w; reflexivity|intros _]. apply quiet_bind; [apply quiet_solve|intros f].
    apply quiet_bind; [intros w; reflexivity|intros s]. apply quiet_bind; [intros w; unfold slift; now destruct (h_stalled H s)|intros [[wing span]|]]; [intros w; reflexivity|apply IH].
  Qed.

  (** what is reported, and what is written *)
  Definition stall_content (r : answer (stall_info T)) : content T :=
    match r with Answer i => F_stall i | ErrorRecord m => F_error m end.

  Lemma onset_given f (w : W) a refs r w' : h_refs H = Some refs -> w_aero w = Some a -> given a ->
    stall_onset H E f w = (r, w') ->
    match r with
    | Ok (Answer i) => si_airspeed i = None /\ exists l n a', stall_scan (h_stalled H) (me_round2 E) (an a) (w_ctl w) l i /\ List.length l = Datatypes.S n /\
        w' = MkW (Some a') (w_ctl w) (w_model w')
               (match named f with Some nm => dset (w_files w) nm [F_stall i] | None => w_files w end) (w_log w ++ l) /\
        an a' = dset (an a) "alpha" (tenths n)
    | Ok (ErrorRecord _) => False
    | Err _ => w_files w' = w_files w
    end.
  Proof.
    intros Hr Ea Ga K. unfold stall_onset in K. rewrite Hr in K. unfold sbind at 2 in K. unfold sbind at 1 in K.
    rewrite (aero_given_some w a Ea Ga) in K.
    destruct (onset_body H E w) as [[i|e] w1] eqn:K1.
    - unfold sret at 1 in K. unfold sbind in K. rewrite write_run in K. unfold sret in K. injection K as <- <-.
      destruct (stall_loop_ok (me_fuel E) 0 w i w1 a (an a) K1 Ea eq_refl) as (Q & l & n & a' & S1 & L & Ew & Ea').
      split; [exact Q|]. exists l, n, a'. split; [exact S1|]. split; [exact L|]. split; [|exact Ea'].
      assert (P1 : w_aero w1 = Some a') by now rewrite Ew. assert (P2 : w_ctl w1 = w_ctl w) by now rewrite Ew.
      assert (P3 : w_files w1 = w_files w) by now rewrite Ew. assert (P4 : w_log w1 = (w_log w ++ l)%list) by now rewrite Ew.
      destruct (named f); [|exact Ew]. unfold put_file. cbn [w_aero w_ctl w_files w_log w_model]. now rewrite P1, P2, P3, P4.
    - injection K as <- <-. pose proof (quiet_stall (me_fuel E) n0 w) as Q. unfold onset_body in K1. rewrite K1 in Q. exact Q.
  Qed.

  Lemma onset_eq f (w : W) refs : h_refs H = Some refs ->
    stall_onset H E f w = match (if aero_given w then onset_body H E w else with_aero default_aero (onset_body H E) w) with
                          | (Ok i, w1) => (Ok (Answer i), match named f with Some nm => put_file nm [F_stall i] w1 | None => w1 end)
                          | (Err e, w1) => (Err e, w1)
                          end.
  Proof.
    intros Hr. unfold stall_onset. rewrite Hr. unfold sbind at 1. unfold sbind at 1.
    destruct (if aero_given w then onset_body H E w else with_aero default_aero (onset_body H E) w) as [[i|e] w1]; [|reflexivity].
    unfold sret at 1. unfold sbind. rewrite write_run. reflexivity.
  Qed.
  Lemma onset_omitted f (w : W) refs : h_refs H = Some refs -> aero_given w = false ->
    let v := stall_onset H E f (put_aero (Some default_aero) w) in
    stall_onset H E f w = (fst v, put_aero (w_aero w) (snd v)).
  Proof.
    intros Hr G. cbv zeta. rewrite !(onset_eq _ _ _ Hr), G.
    assert (G2 : aero_given (put_aero (Some default_aero) w) = true) by reflexivity. rewrite G2. unfold with_aero.
    destruct (onset_body H E (put_aero (Some default_aero) w)) as [[i|e] w1]; [|reflexivity]. now destruct (named f).
  Qed.
  Lemma onset_no_wings f (w : W) : h_refs H = None ->
    stall_onset H E f w = match named f with
                          | Some nm => (Ok (ErrorRecord "unstallable"), put_file nm [F_error "unstallable"] w)
                          | None => (Err RuntimeError, w)
                          end.
  Proof.
    intros Hr. unfold stall_onset. rewrite Hr. destruct (named f) as [nm|] eqn:Ef; [|reflexivity].
    unfold sbind, sret. rewrite write_run, Ef. reflexivity.
  Qed.

  (** it never stops if no angle stalls *)
  Lemma never_stalls fuel : forall m (w : W) a d, w_aero w = Some a -> dset (an a) "alpha" (tenths m) = dset d "alpha" (tenths m) ->
    (forall k a s, an a = dset d "alpha" (tenths k) -> exists f a' s', h_solve H a (w_ctl w) s = (Ok f, a', s') /\ h_stalled H s' = Ok None) ->
    fst (stall_loop H E fuel (tenths m) w) = Err OutOfFuel.
  Proof.
    induction fuel as [|fuel IH]; intros m w a d Ea Ab Hn; [reflexivity|].
    cbn [stall_loop]. rewrite (sbind_run _ _ _ _ _ (set_aero_run _ _ _ _ Ea)). rewrite Ab.
    match goal with |- fst (sbind (do_solve H) _ ?v) = _ => destruct (do_solve H v) as [r w1] eqn:K1;
      destruct (do_solve_run H keeps v _ _ (MkAero (dset d "alpha" (tenths m)) (als a)) K1 eq_refl) as (a1 & A1 & A1' & A2 & A3) end.
    { left. cbn. apply dset_nil. }
    cbn [w_ctl w_model w_files w_log an] in A1, A2, A3.
    destruct (Hn m (MkAero (dset d "alpha" (tenths m)) (als a)) (w_model w) eq_refl) as (f & a' & s' & B1 & B2).
    rewrite B1 in A2. injection A2 as Er Ea1 Es. subst r a'.
    rewrite (sbind_run _ _ _ _ _ K1). rewrite (sbind_run (sget (@w_model T S)) _ _ (w_model w1) w1 eq_refl).
    unfold sbind at 1, slift. rewrite <- Es, B2.
    change (nadd (tenths m) (ndec 1 1)) with (tenths (Datatypes.S m)).
    unfold sret. apply (IH (Datatypes.S m) w1 a1 d).
    - now rewrite A3. - now rewrite A1, dset_twice. - rewrite A3. exact Hn.
  Qed.
  Lemma onset_never f (w : W) a refs : h_refs H = Some refs -> w_aero w = Some a -> given a ->
    (forall k a0 s, an a0 = dset (an a) "alpha" (tenths k) -> exists f a' s', h_solve H a0 (w_ctl w) s = (Ok f, a', s') /\ h_stalled H s' = Ok None) ->
    fst (stall_onset H E f w) = Err OutOfFuel.
  Proof.
    intros Hr Ea Ga Hn. unfold stall_onset. rewrite Hr. unfold sbind at 1. unfold sbind at 1.
    rewrite (aero_given_some w a Ea Ga).
    pose proof (never_stalls (me_fuel E) 0 w a (an a) Ea eq_refl Hn) as Q. unfold onset_body. change (tenths 0) with (n0 : T) in Q.
    destruct (stall_loop H E (me_fuel E) n0 w) as [r w1]. cbn [fst] in Q. now rewrite Q.
  Qed.
End Generic.

Lemma dset_comm {T} (d : dict T) k1 k2 x y v : dget d k1 = Some v -> k1 <> k2 -> dset (dset d k2 y) k1 x = dset (dset d k1 x) k2 y.
Proof.
  intros Hd Hk. induction d as [|[k z] d IH]; [discriminate|].
  cbn [dget] in Hd. cbn [dset]. destruct (String.eqb k1 k) eqn:E1, (String.eqb k2 k) eqn:E2.
  - apply String.eqb_eq in E1, E2. congruence.
  - cbn [dset]. now rewrite E1, E2.
  - cbn [dset]. now rewrite E1, E2.
  - cbn [dset]. rewrite E1, E2. f_equal. auto.
Qed.

Section Airspeed.
  Context {T : Type} {N : num_ops T} {S : Type}.
  Variable H : host T S.
  Variable E : menv T.
  Notation W := (world T S).
  Hypothesis keeps : forall a c s r a' s', h_solve H a c s = (r, a', s') ->
    an a' = an a /\ (als a <> None -> als a' <> None).
  Notation scan := (stall_scan (h_stalled H) (me_round2 E)).

  Lemma airspeed_loop_ok fuel : forall weight error base v0 x0 x1 i0 i1 (w : W) i w' a pre l0 l1 t,
    dget base "V_mag" = Some v0 ->
    airspeed_loop H E fuel weight error x0 (nsub (si_lift i0) weight) x1 (nsub (si_lift i1) weight) i1 w = (Ok i, w') ->
    w_aero w = Some a -> an a = dset (dset base "V_mag" x1) "alpha" t ->
    w_log w = (pre ++ l0 ++ l1)%list ->
    scan (dset base "V_mag" x0) (w_ctl w) l0 i0 -> scan (dset base "V_mag" x1) (w_ctl w) l1 i1 ->
    w_files w' = w_files w /\ w_ctl w' = w_ctl w /\
    exists pre l0 l1 x0 x1 x2 i0 i1, w_log w' = (pre ++ l0 ++ l1)%list /\
      last_scans scan weight error base (w_ctl w) l0 l1 x0 x1 x2 i0 i1 i.
  Proof.
    induction fuel as [|fuel IH]; intros weight error base v0 x0 x1 i0 i1 w i w' a pre l0 l1 t Hb K Ea Ab El S0 S1; [discriminate|].
    cbn [airspeed_loop] in K. set (x2 := nsub x1 (ndiv (nmul (nsub (si_lift i1) weight) (nsub x1 x0)) (nsub (nsub (si_lift i1) weight) (nsub (si_lift i0) weight)))) in *.
    cbv zeta in K. fold x2 in K.
    destruct (nltb (nabs (nsub x2 x1)) error) eqn:Hx.
    - injection K as <- <-. split; [reflexivity|]. split; [reflexivity|]. exists pre, l0, l1, x0, x1, x2, i0, i1.
      split; [exact El|]. unfold last_scans. auto 8.
    - rewrite (sbind_run _ _ _ _ _ (set_aero_run _ _ _ _ Ea)) in K.
      apply sbind_ok in K. destruct K as (i2 & w1 & K1 & K).
      assert (Ad : dset (an a) "V_mag" x2 = dset (dset base "V_mag" x2) "alpha" t).
      { rewrite Ab. rewrite (dset_comm _ "V_mag" "alpha" x2 t x1); [now rewrite dset_twice|apply dget_dset_same|discriminate]. }
      unfold onset_body in K1.
      destruct (stall_loop_ok H E keeps (me_fuel E) 0 _ i2 w1 _ (dset base "V_mag" x2) K1 eq_refl) as (_ & l2 & n & a' & S2 & _ & Ew & Ea').
      { cbn [an]. rewrite Ad. apply dset_twice. }
      cbn [w_ctl w_files w_log] in Ew, S2.
      assert (P1 : w_aero w1 = Some a') by now rewrite Ew. assert (P2 : w_ctl w1 = w_ctl w) by now rewrite Ew.
      assert (P3 : w_files w1 = w_files w) by now rewrite Ew. assert (P4 : w_log w1 = (w_log w ++ l2)%list) by now rewrite Ew.
      rewrite <- P2, <- P3. apply (IH weight error base v0 x1 x2 i1 i2 w1 i w' a' (pre ++ l0)%list l1 l2 (tenths n) Hb K P1 Ea').
      + rewrite P4, El. now rewrite !app_assoc.
      + now rewrite P2.
      + now rewrite P2.
  Qed.

  Lemma airspeed_body_ok weight error a (w : W) i w' : airspeed_body H E weight error a w = (Ok i, w') ->
    w_files w' = w_files w /\ w_ctl w' = w_ctl w /\
    exists pre l0 l1 x0 x1 x2 i0 i1, w_log w' = (pre ++ l0 ++ l1)%list /\
      last_scans scan weight error (an a) (w_ctl w) l0 l1 x0 x1 x2 i0 i1 i.
  Proof.
    intros K. unfold airspeed_body in K.
    unfold dlookup in K. destruct (dget (an a) "V_mag") as [x0|] eqn:Ex; [|discriminate].
    rewrite (sbind_run (slift (Ok x0)) _ w x0 w eq_refl) in K. cbv zeta in K.
    set (x1 := nadd (nmul x0 (ndec 15 1)) (ndec 1 1)) in *.
    unfold sbind at 1 in K. unfold with_aero at 1 in K.
    destruct (onset_body H E (put_aero (Some (MkAero (dset (an a) "V_mag" x0) (als a))) w)) as [[i0|e] w1] eqn:K0; [|discriminate].
    destruct (stall_loop_ok H E keeps (me_fuel E) 0 _ i0 w1 _ (dset (an a) "V_mag" x0) K0 eq_refl eq_refl) as (_ & l0 & n0' & a0 & S0 & _ & Ew0 & _).
    cbn [put_aero w_ctl w_files w_log] in Ew0, S0.
    unfold with_aero at 1 in K.
    match type of K with context [sbind (onset_body H E) ?f ?v] => destruct (sbind (onset_body H E) f v) as [r2 w2] eqn:K1 end.
    injection K as -> <-. apply sbind_ok in K1. destruct K1 as (i1 & w3 & K1 & K2).
    destruct (stall_loop_ok H E keeps (me_fuel E) 0 _ i1 w3 _ (dset (an a) "V_mag" x1) K1 eq_refl eq_refl) as (_ & l1 & n1' & a1 & S1 & _ & Ew1 & Ea1).
    cbn [put_aero w_ctl w_files w_log] in Ew1, S1.
    assert (P2 : w_ctl w1 = w_ctl w) by now rewrite Ew0. assert (P3 : w_files w1 = w_files w) by now rewrite Ew0.
    assert (P4 : w_log w1 = (w_log w ++ l0)%list) by now rewrite Ew0.
    assert (P5 : w_aero w3 = Some a1) by now rewrite Ew1. assert (P6 : w_ctl w3 = w_ctl w) by (rewrite Ew1; exact P2).
    assert (P7 : w_files w3 = w_files w) by (rewrite Ew1; exact P3).
    assert (P8 : w_log w3 = (w_log w ++ l0 ++ l1)%list) by (rewrite Ew1; cbn [w_log]; now rewrite P4, app_assoc).
    rewrite P2 in S1.
    destruct (airspeed_loop_ok (me_fuel E) weight error (an a) x0 x0 x1 i0 i1 w3 i w2 a1 (w_log w) l0 l1 (tenths n1') Ex K2 P5 Ea1 P8)
      as (Q1 & Q2 & pre & m0 & m1 & z0 & z1 & z2 & j0 & j1 & Q3 & Q4); [now rewrite P6|now rewrite P6|].
    rewrite P6 in Q4, Q2. rewrite P7 in Q1. cbn [put_aero w_files w_ctl w_log].
    split; [exact Q1|]. split; [exact Q2|]. exists pre, m0, m1, z0, z1, z2, j0, j1. auto.
  Qed.
  Lemma aero_kept weight error a (w : W) : w_aero (snd (airspeed_body H E weight error a w)) = w_aero w.
  Proof.
    unfold airspeed_body. destruct (dlookup (an a) "V_mag") as [x0|e]; [|reflexivity].
    rewrite (sbind_run (slift (Ok x0)) _ w x0 w eq_refl). cbv zeta.
    unfold sbind at 1. unfold with_aero at 1. set (v := put_aero _ w). destruct (onset_body H E v) as [[i0|e] w1]; [|reflexivity].
    unfold with_aero. match goal with |- context [let (_, _) := ?m in _] => now destruct m as [r w2] end.
  Qed.

  Lemma airspeed_given weight f error (w : W) a refs r w' : h_refs H = Some refs -> w_aero w = Some a -> given a ->
    stall_airspeed H E weight f error w = (r, w') ->
    w_aero w' = w_aero w /\
    match r with
    | Ok (Answer i) => w_ctl w' = w_ctl w /\
        w_files w' = (match named f with Some nm => dset (w_files w) nm [F_stall i] | None => w_files w end) /\
        exists pre l0 l1 x0 x1 x2 i0 i1, w_log w' = (pre ++ l0 ++ l1)%list /\
          last_scans scan weight error (an a) (w_ctl w) l0 l1 x0 x1 x2 i0 i1 i
    | Ok (ErrorRecord _) => False
    | Err _ => True
    end.
  Proof.
    intros Hr Ea Ga K. unfold stall_airspeed in K. rewrite Hr in K. unfold sbind at 2 in K. unfold sbind at 1 in K.
    assert (G : opt_truthy aero_truthy (w_aero w) = Some a).
    { pose proof (aero_given_some w a Ea Ga) as G. unfold aero_given in G. rewrite Ea in *. cbn in *. now destruct (aero_truthy a). }
    rewrite G in K. pose proof (aero_kept weight error a w) as Ka.
    destruct (airspeed_body H E weight error a w) as [[i|e] w1] eqn:K1; cbn [snd] in Ka.
    - unfold sret at 1 in K. unfold sbind in K. rewrite write_run in K. unfold sret in K. injection K as <- <-.
      destruct (airspeed_body_ok _ _ _ _ _ _ K1) as (Q1 & Q2 & Q3).
      split; [destruct (named f); exact Ka|]. split; [destruct (named f); exact Q2|].
      split; [destruct (named f); [cbn [put_file w_files]; now rewrite Q1|exact Q1]|].
      destruct (named f); exact Q3.
    - injection K as <- <-. auto.
  Qed.
  Lemma airspeed_omitted weight f error (w : W) refs : h_refs H = Some refs -> aero_given w = false ->
    stall_airspeed H E weight f error w = (Err AttributeError, w).
  Proof.
    intros Hr G. unfold stall_airspeed. rewrite Hr. unfold sbind at 1. unfold sbind at 1.
    unfold aero_given in G. destruct (opt_truthy aero_truthy (w_aero w)); [discriminate|reflexivity].
  Qed.
  Lemma airspeed_no_wings weight f error (w : W) : h_refs H = None ->
    stall_airspeed H E weight f error w = match named f with
                          | Some nm => (Ok (ErrorRecord "unstallable"), put_file nm [F_error "unstallable"] w)
                          | None => (Err RuntimeError, w)
                          end.
  Proof.
    intros Hr. unfold stall_airspeed. rewrite Hr. destruct (named f) as [nm|] eqn:Ef; [|reflexivity].
    unfold sbind, sret. rewrite write_run, Ef. reflexivity.
  Qed.
End Airspeed.
