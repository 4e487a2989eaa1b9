(** pitch_trim (C43, C44). *)
From Coq Require Import Reals ZArith String Bool Arith Lia Lra List.
From Verif Require Import Base Num RVec Geometry Grid LLModel PropModel Spec_Grid Spec_LL LL_state LL_R MU Spec_MU MU_thm MU_thm2 MU_thm3 MU_thm5 MU_thm8.
Import ListNotations.
Local Open Scope string_scope.

Section Generic.
  Context {T : Type} {N : num_ops T} {S : Type}.
  Variable H : host T S.
  Variable E : menv T.
  Notation W := (world T S).
  Hypothesis keeps : forall a c s r a' s', h_solve H a c s = (r, a', s') ->
    an a' = an a /\ (als a <> None -> als a' <> None).

  Definition quarter_step : T := ndec 25 2.

  (** number of solves, whatever happens *)
  Definition costs {A} (n : nat) (m : st W A) : Prop :=
    forall w, exists l, w_log (snd (m w)) = (w_log w ++ l)%list /\ (List.length l <= n)%nat.
  Lemma costs_0 {A} (m : st W A) : (forall w, w_log (snd (m w)) = w_log w) -> costs 0 m.
  Proof. intros K w. exists []. rewrite K, app_nil_r. auto. Qed.
  Lemma costs_weak {A} n n' (m : st W A) : (n <= n')%nat -> costs n m -> costs n' m.
  Proof. intros Hn K w. destruct (K w) as (l & A1 & A2). exists l. split; [exact A1|lia]. Qed.
  Lemma costs_bind {A B} n n' (m : st W A) (f : A -> st W B) : costs n m -> (forall a, costs n' (f a)) -> costs (n + n') (sbind m f).
  Proof.
    intros Km Kf w. unfold sbind. destruct (Km w) as (l & A1 & A2). destruct (m w) as [[a|e] w1]; cbn [snd] in *.
    - destruct (Kf a w1) as (l' & B1 & B2). exists (l ++ l')%list. rewrite B1, A1, app_assoc, app_length. split; [reflexivity|lia].
    - exists l. split; [exact A1|lia].
  Qed.
  Lemma costs_solve : costs 1 (do_solve H).
  Proof.
    intros w. unfold do_solve, with_aero, raw_solve. destruct (aero_given w).
    - destruct (w_aero w) as [a|].
      + destruct (h_solve H a (w_ctl w) (w_model w)) as [[r a'] s']. eexists. split; [reflexivity|cbn; lia].
      + exists []. rewrite app_nil_r. split; [reflexivity|cbn; lia].
    - cbn [put_aero w_aero w_ctl w_model w_log]. destruct (h_solve H default_aero (w_ctl w) (w_model w)) as [[r a'] s'].
      eexists. split; [reflexivity|cbn; lia].
  Qed.
  Lemma costs_set_aero k x : costs 0 (set_aero k x : st W unit).
  Proof. now apply costs_0. Qed.
  Lemma costs_set_ctl k x : costs 0 (set_ctl k x : st W unit).
  Proof. now apply costs_0. Qed.
  Lemma costs_get_aero k x : costs 0 (get_aero k x : st W T).
  Proof. apply costs_0. intros w. unfold get_aero. now destruct (w_aero w). Qed.
  Lemma costs_get_ctl k x : costs 0 (get_ctl k x : st W T).
  Proof. apply costs_0. intros w. unfold get_ctl. now destruct (w_ctl w). Qed.
  Lemma costs_ret {A} (x : A) : costs 0 (sret x : st W A).
  Proof. now apply costs_0. Qed.
  Lemma costs_raise {A} e : costs 0 (sraise e : st W A).
  Proof. now apply costs_0. Qed.
  Lemma costs_lift {A} (r : res A) : costs 0 (slift r : st W A).
  Proof. apply costs_0. intros w. now destruct r. Qed.
  Lemma costs_write f c : costs 0 (write_if f c : st W unit).
  Proof. apply costs_0. intros w. unfold write_if. now destruct (named f). Qed.
  Lemma costs_around_aero k x d : costs 2 (around_aero H k x d).
  Proof.
    unfold around_aero. apply (costs_bind 0 2); [apply costs_set_aero|intros _]. apply (costs_bind 1 1); [apply costs_solve|intros b].
    apply (costs_bind 0 1); [apply costs_set_aero|intros _]. apply (costs_bind 1 0); [apply costs_solve|intros f]. apply costs_ret.
  Qed.
  Lemma costs_around_ctl k x d : costs 2 (around_ctl H k x d).
  Proof.
    unfold around_ctl. apply (costs_bind 0 2); [apply costs_set_ctl|intros _]. apply (costs_bind 1 1); [apply costs_solve|intros b].
    apply (costs_bind 0 1); [apply costs_set_ctl|intros _]. apply (costs_bind 1 0); [apply costs_solve|intros f]. apply costs_ret.
  Qed.
  Lemma costs_slope f : costs 4 (slope_of H f).
  Proof.
    unfold slope_of. cbv zeta. apply (costs_bind 0 4); [apply costs_get_aero|intros a0]. apply (costs_bind 2 2); [apply costs_around_aero|intros q].
    apply (costs_bind 0 2); [apply costs_set_aero|intros _]. apply (costs_bind 0 2); [apply costs_get_ctl|intros e0].
    apply (costs_bind 2 0); [apply costs_around_ctl|intros q']. apply (costs_bind 0 0); [apply costs_set_ctl|intros _]. apply costs_ret.
  Qed.
  Lemma costs_trim_loop fuel : forall L m error f a de i, (i + fuel = 102)%nat -> (i <= 100)%nat ->
    costs (9 * (101 - i)) (trim_loop H E fuel L m error f a de i).
  Proof.
    induction fuel as [|fuel IH]; intros L m error f a de i Hf Hi; [lia|].
    cbn [trim_loop]. replace (9 * (101 - i))%nat with (1 + (4 + (4 + 9 * (100 - i))))%nat by lia.
    set (R := (9 * (100 - i))%nat).
    apply (costs_bind 0 (1 + (4 + (4 + R)))); [apply costs_set_aero|intros _]. apply (costs_bind 0 (1 + (4 + (4 + R)))); [apply costs_set_ctl|intros _].
    apply (costs_bind 1 (4 + (4 + R))); [apply costs_solve|intros cur]. cbv zeta.
    destruct (_ && _).
    { apply (costs_weak 0); [lia|]. apply (costs_bind 0 0); [apply costs_write|intros _]. apply costs_ret. }
    apply (costs_bind 4 (4 + R)); [apply costs_slope|intros [L_a L_de]].
    apply (costs_bind 4 R); [apply costs_slope|intros [m_a m_de]].
    destruct (_ && _).
    { apply (costs_weak 0); [lia|]. destruct (named f); [|apply costs_raise]. apply (costs_bind 0 0); [apply costs_write|intros _]. apply costs_ret. }
    apply (costs_bind 0 R); [apply costs_lift|intros Ji].
    destruct (mat_vec Ji _) as [|d0 [|d1 r]]; try (apply (costs_weak 0); [lia|apply costs_raise]).
    destruct (Nat.ltb 100 (Datatypes.S i)) eqn:Hl.
    { apply (costs_weak 0); [lia|]. destruct (named f); [|apply costs_raise]. apply (costs_bind 0 0); [apply costs_write|intros _]. apply costs_ret. }
    apply Nat.ltb_ge in Hl. apply (costs_weak (9 * (101 - Datatypes.S i))); [subst R; lia|]. apply IH; lia.
  Qed.

  (** one slope: four solves, both dictionaries restored *)
  Lemma slope_ok g (w : W) sa se w' a c :
    slope_of H g w = (Ok (sa, se), w') -> w_aero w = Some a -> w_ctl w = Some c ->
    exists k1 k2 k3 k4 b1 f1 b2 f2 a',
      let a0 := dgetd (an a) "alpha" n0 in let e0 := dgetd c "elevator" n0 in
      let a1 := dset (an a) "alpha" a0 in
      w' = MkW (Some a') (Some (dset c "elevator" e0)) (w_model w') (w_files w) (w_log w ++ [k1; k2; k3; k4]) /\
      solved_at k1 (dset (an a) "alpha" (nsub a0 quarter_step)) (Some c) b1 /\
      solved_at k2 (dset (an a) "alpha" (nadd a0 quarter_step)) (Some c) f1 /\
      solved_at k3 a1 (Some (dset c "elevator" (nsub e0 quarter_step))) b2 /\
      solved_at k4 a1 (Some (dset c "elevator" (nadd e0 quarter_step))) f2 /\
      an a' = a1 /\
      sa = ndiv (nsub (g f1) (g b1)) (nrad (nmul n2 quarter_step)) /\
      se = ndiv (nsub (g f2) (g b2)) (nrad (nmul n2 quarter_step)).
  Proof.
    intros K Ea Ec. unfold slope_of in K. cbv zeta in K. fold quarter_step in K.
    rewrite (sbind_run _ _ _ _ _ (get_aero_some _ _ _ _ Ea)) in K.
    apply sbind_ok in K. destruct K as ([f1 b1] & w1 & K1 & K).
    destruct (pair_aero H keeps _ _ _ (dgetd (an a) "alpha" n0) _ _ _ _ _ K1 Ea) as (c1 & c2 & a1 & E1 & A1 & A2 & A3 & A4 & A5 & A6 & A7).
    apply sbind_ok in K. destruct K as ([] & w2 & K2 & K). rewrite K2 in E1. cbn [snd] in E1. clear K2.
    assert (Ea2 : w_aero w2 = Some a1) by now rewrite E1. assert (Ec2 : w_ctl w2 = Some c) by (rewrite E1; exact Ec).
    rewrite (sbind_run _ _ _ _ _ (get_ctl_some _ _ _ _ Ec2)) in K.
    apply sbind_ok in K. destruct K as ([f2 b2] & w3 & K3 & K).
    destruct (pair_ctl H keeps _ _ _ (dgetd c "elevator" n0) _ _ _ _ _ K3 Ec2) as (c3 & c4 & o & E2 & B1 & B2 & B3 & B4 & B5 & _).
    apply sbind_ok in K. destruct K as ([] & w4 & K4 & K). rewrite K4 in E2. cbn [snd] in E2. clear K4.
    assert (Ga : given a1). { left. rewrite A7. apply dset_nil. }
    destruct (B5 a1 Ea2 Ga) as (D1 & D2 & a2 & -> & _ & D3).
    injection K as <- <- <-. cbn [fst snd].
    exists c1, c2, c3, c4, b1, f1, b2, f2, a2. cbv zeta.
    split. { rewrite E2, E1. cbn [w_model w_files w_log]. now rewrite <- app_assoc. }
    rewrite Ec in A3, A4. unfold solved_at. rewrite <- A7. repeat split; auto; congruence.
  Qed.

  Definition trim_ending (base cbase : dict T) (L m error : T) (f : option string) (w w' : W) (r : res (option (T * T))) : Prop :=
    match r with
    | Ok (Some (x, y)) =>
        exists pre k a', w_log w' = (pre ++ [k])%list /\ trimmed_at base cbase L m error k x y /\
          w_aero w' = Some a' /\ an a' = dset base "alpha" x /\ w_ctl w' = Some (dset cbase "elevator" y) /\
          w_files w' = match named f with Some n => dset (w_files w) n [F_numbers [("alpha", x); ("elevator", y)]] | None => w_files w end
    | Ok None => exists n msg, named f = Some n /\ (msg = "no_elevator" \/ msg = "untrimmable") /\
                   w_files w' = dset (w_files w) n [F_error msg]
    | Err _ => w_files w' = w_files w
    end.

  Lemma set_aero_run k x (w : W) a : w_aero w = Some a ->
    set_aero k x w = (Ok tt, MkW (Some (MkAero (dset (an a) k x) (als a))) (w_ctl w) (w_model w) (w_files w) (w_log w)).
  Proof. intros K. unfold set_aero, smod, put_aero. now rewrite K. Qed.
  Lemma set_ctl_run k x (w : W) c : w_ctl w = Some c ->
    set_ctl k x w = (Ok tt, MkW (w_aero w) (Some (dset c k x)) (w_model w) (w_files w) (w_log w)).
  Proof. intros K. unfold set_ctl, smod, put_ctl. now rewrite K. Qed.
  Lemma files_solve (w : W) r w' : do_solve H w = (r, w') -> w_files w' = w_files w.
  Proof.
    unfold do_solve, with_aero, raw_solve. destruct (aero_given w).
    - destruct (w_aero w) as [a|].
      + destruct (h_solve H a (w_ctl w) (w_model w)) as [[r0 a'] s']. intros K. now injection K as _ <-.
      + intros K. now injection K as _ <-.
    - cbn [put_aero w_aero w_ctl w_model w_files]. destruct (h_solve H default_aero (w_ctl w) (w_model w)) as [[r0 a'] s']. intros K. now injection K as _ <-.
  Qed.
  Definition quiet {A} (m : st W A) : Prop := forall w, w_files (snd (m w)) = w_files w.
  Lemma quiet_bind {A B} (m : st W A) (f : A -> st W B) : quiet m -> (forall a, quiet (f a)) -> quiet (sbind m f).
  Proof. intros Km Kf w. unfold sbind. specialize (Km w). destruct (m w) as [[a|e] w1]; cbn [snd] in *; [rewrite Kf; exact Km|exact Km]. Qed.
  Lemma quiet_solve : quiet (do_solve H).
  Proof. intros w. destruct (do_solve H w) as [r w'] eqn:K. exact (files_solve _ _ _ K). Qed.
  Lemma quiet_get_aero k x : quiet (get_aero k x : st W T).
  Proof. intros w. unfold get_aero. now destruct (w_aero w). Qed.
  Lemma quiet_get_ctl k x : quiet (get_ctl k x : st W T).
  Proof. intros w. unfold get_ctl. now destruct (w_ctl w). Qed.
  Lemma quiet_slope f : quiet (slope_of H f).
  Proof.
    unfold slope_of, around_aero, around_ctl. cbv zeta.
    repeat (apply quiet_bind; [|intro]); try apply quiet_solve; try apply quiet_get_aero; try apply quiet_get_ctl; intros w; reflexivity.
  Qed.

  Lemma trim_loop_spec fuel : forall L m error f base cbase x y i (w : W) r w' a c,
    trim_loop H E fuel L m error f x y i w = (r, w') ->
    w_aero w = Some a -> dset (an a) "alpha" x = dset base "alpha" x ->
    w_ctl w = Some c -> dset c "elevator" y = dset cbase "elevator" y ->
    trim_ending base cbase L m error f w w' r.
  Proof.
    induction fuel as [|fuel IH]; intros L m error f base cbase x y i w r w' a c K Ea Ab Ec Cb.
    { cbn in K. injection K as <- <-. reflexivity. }
    cbn [trim_loop] in K.
    rewrite (sbind_run _ _ _ _ _ (set_aero_run _ _ _ _ Ea)) in K.
    rewrite (sbind_run _ _ _ _ _ (set_ctl_run _ _ (MkW _ (w_ctl w) _ _ _) c Ec)) in K. rewrite Ab, Cb in K. cbn [w_aero w_model w_files w_log] in K.
    match type of K with sbind (do_solve H) _ ?v = _ => remember v as w0 eqn:Ew0 in K; destruct (do_solve H w0) as [r0 w1] eqn:K0 end.
    destruct (do_solve_run H keeps w0 r0 w1 (MkAero (dset base "alpha" x) (als a)) K0) as (a1 & A1 & A1' & A2 & A3).
    { now rewrite Ew0. } { left. cbn. apply dset_nil. }
    rewrite Ew0 in A2, A3. cbn [w_ctl w_model w_files w_log an] in A1, A2, A3.
    unfold sbind at 1 in K. rewrite K0 in K. clear K0.
    destruct r0 as [cur|e].
    2: { injection K as <- <-. cbn. now rewrite A3. }
    cbv zeta in K.
    destruct (nltb (nabs (nsub (FL cur) L)) error && nltb (nabs (nsub (MY cur) m)) error) eqn:Hb.
    { apply andb_true_iff in Hb. destruct Hb as [Hb1 Hb2].
      unfold sbind in K. rewrite write_run in K. injection K as <- <-.
      cbn [trim_ending]. exists (w_log w), (MkCall (MkAero (dset base "alpha" x) (als a)) (Some (dset cbase "elevator" y)) (Ok cur) (w_model w1)), a1.
      split; [destruct (named f); cbn [put_file w_log]; rewrite A3; reflexivity|].
      split; [exists cur; split; [repeat split|split; assumption]|].
      split; [destruct (named f); cbn [put_file w_aero]; rewrite A3; reflexivity|].
      split; [exact A1|]. split; [destruct (named f); cbn [put_file w_ctl]; rewrite A3; reflexivity|].
      destruct (named f); cbn [put_file w_files]; rewrite A3; reflexivity. }
    assert (Ea1 : w_aero w1 = Some a1) by now rewrite A3.
    assert (Ec1 : w_ctl w1 = Some (dset cbase "elevator" y)) by now rewrite A3.
    assert (Ef1 : w_files w1 = w_files w) by now rewrite A3.
    clear A3 A2. clear Ew0 w0.
    assert (Hs : forall g v r v' b d, slope_of H g v = (r, v') -> w_aero v = Some b -> an b = dset base "alpha" x ->
        w_ctl v = Some d -> d = dset cbase "elevator" y -> w_files v = w_files w ->
        w_files v' = w_files w /\ (forall q, r = Ok q -> exists b', w_aero v' = Some b' /\ an b' = dset base "alpha" x /\ w_ctl v' = Some (dset cbase "elevator" y))).
    { intros g v r0 v' b d Ks Eb Ab' Ed Cd Ev. split.
      - pose proof (quiet_slope g v) as Q. rewrite Ks in Q. cbn [snd] in Q. congruence.
      - intros [sa se] ->. destruct (slope_ok _ _ _ _ _ _ _ Ks Eb Ed) as (i1 & i2 & i3 & i4 & b1 & f1 & b2 & f2 & b' & Ew & _ & _ & _ & _ & B5 & _).
        exists b'. cbv zeta in Ew, B5. subst d. rewrite Ab' in B5. unfold dgetd in Ew, B5. rewrite ?dget_dset_same in Ew, B5.
        rewrite dset_twice in Ew, B5. rewrite Ew. cbn. auto. }
    unfold sbind at 1 in K. destruct (slope_of H (@FL T) w1) as [[[L_a L_de]|e] w2] eqn:K1.
    2: { injection K as <- <-. cbn. destruct (Hs _ _ _ _ _ _ K1 Ea1 A1 Ec1 eq_refl Ef1) as [Q _]. exact Q. }
    destruct (Hs _ _ _ _ _ _ K1 Ea1 A1 Ec1 eq_refl Ef1) as [Ef2 Q2]. destruct (Q2 _ eq_refl) as (a2 & Ea2 & A2 & Ec2). clear Q2 K1.
    unfold sbind at 1 in K. destruct (slope_of H (@MY T) w2) as [[[m_a m_de]|e] w3] eqn:K2.
    2: { injection K as <- <-. cbn. destruct (Hs _ _ _ _ _ _ K2 Ea2 A2 Ec2 eq_refl Ef2) as [Q _]. exact Q. }
    destruct (Hs _ _ _ _ _ _ K2 Ea2 A2 Ec2 eq_refl Ef2) as [Ef3 Q3]. destruct (Q3 _ eq_refl) as (a3 & Ea3 & A3 & Ec3). clear Q3 K2 Hs.
    destruct (neqb L_de n0 && neqb m_de n0).
    { destruct (named f) as [n|] eqn:Ef.
      - unfold sbind in K. rewrite write_run, Ef in K. injection K as <- <-. cbn [trim_ending]. exists n, "no_elevator".
        cbn. rewrite Ef3. auto.
      - injection K as <- <-. exact Ef3. }
    unfold sbind at 1 in K. destruct (np_inv E _) as [Ji|e]; cbn [slift] in K.
    2: { injection K as <- <-. exact Ef3. }
    unfold sret in K. destruct (mat_vec Ji _) as [|d0 [|d1 rest]]; try (injection K as <- <-; exact Ef3).
    destruct (Nat.ltb 100 (Datatypes.S i)).
    { destruct (named f) as [n|] eqn:Ef.
      - unfold sbind in K. rewrite write_run, Ef in K. injection K as <- <-. cbn [trim_ending]. exists n, "untrimmable".
        cbn. rewrite Ef3. auto.
      - injection K as <- <-. exact Ef3. }
    assert (Q : trim_ending base cbase L m error f w3 w' r).
    { eapply IH; [exact K|exact Ea3| |exact Ec3|]; [rewrite A3|]; now rewrite !dset_twice. }
    unfold trim_ending in Q |- *. rewrite Ef3 in Q. exact Q.
  Qed.
End Generic.

(** *** pitch_trim itself *)
Section Calls.
  Context {T : Type} {N : num_ops T} {S : Type}.
  Variable H : host T S.
  Variable E : menv T.
  Notation W := (world T S).
  Hypothesis keeps : forall a c s r a' s', h_solve H a c s = (r, a', s') ->
    an a' = an a /\ (als a <> None -> als a' <> None).

  Lemma ctl_given_some (w : W) c : w_ctl w = Some c -> c <> [] -> ctl_given w = true.
  Proof. intros K Hc. unfold ctl_given. rewrite K. cbn. destruct c; [congruence|reflexivity]. Qed.
  Lemma trim_given L m f error (w : W) a c : w_aero w = Some a -> given a -> w_ctl w = Some c -> c <> [] ->
    pitch_trim H E L m f error w = trim_body H E L m error f w.
  Proof. intros Ea Ga Ec Gc. unfold pitch_trim. now rewrite (aero_given_some w a Ea Ga), (ctl_given_some w c Ec Gc). Qed.

  Lemma trim_spec L m f error (w : W) a c r w' :
    w_aero w = Some a -> given a -> w_ctl w = Some c -> c <> [] -> pitch_trim H E L m f error w = (r, w') ->
    trim_ending (an a) c L m error f w w' r /\ exists l, w_log w' = (w_log w ++ l)%list /\ (List.length l <= 909)%nat.
  Proof.
    intros Ea Ga Ec Gc K. rewrite (trim_given _ _ _ _ _ _ _ Ea Ga Ec Gc) in K. unfold trim_body in K. split.
    - exact (trim_loop_spec H E keeps _ _ _ _ _ _ _ _ _ _ _ _ _ _ _ K Ea eq_refl Ec eq_refl).
    - destruct (costs_trim_loop H E 102 L m error f n0 n0 0 eq_refl ltac:(lia) w) as (l & B1 & B2). rewrite K in B1. exists l. split; [exact B1|exact B2].
  Qed.

  (** the values found on entry do not matter *)
  Lemma loop_entry fuel L m error f x y i (w w2 : W) a c x0 y0 :
    w_aero w = Some a -> w_ctl w = Some c ->
    w2 = MkW (Some (MkAero (dset (an a) "alpha" x0) (als a))) (Some (dset c "elevator" y0)) (w_model w) (w_files w) (w_log w) ->
    trim_loop H E (Datatypes.S fuel) L m error f x y i w2 = trim_loop H E (Datatypes.S fuel) L m error f x y i w.
  Proof.
    intros Ea Ec ->. cbn [trim_loop].
    rewrite (sbind_run _ _ _ _ _ (set_aero_run "alpha" x w a Ea)).
    rewrite (sbind_run _ _ _ _ _ (set_aero_run "alpha" x (MkW _ _ _ _ _) _ eq_refl)).
    rewrite (sbind_run _ _ _ _ _ (set_ctl_run "elevator" y (MkW _ (w_ctl w) _ _ _) c Ec)).
    cbn [an als w_aero w_ctl w_model w_files w_log].
    rewrite (sbind_run _ _ _ _ _ (set_ctl_run "elevator" y (MkW _ (Some _) _ _ _) _ eq_refl)).
    cbn [an als w_aero w_ctl w_model w_files w_log]. now rewrite !dset_twice.
  Qed.
  Lemma trim_entry L m f error (w : W) a c x0 y0 :
    w_aero w = Some a -> given a -> w_ctl w = Some c -> c <> [] ->
    pitch_trim H E L m f error
      (MkW (Some (MkAero (dset (an a) "alpha" x0) (als a))) (Some (dset c "elevator" y0)) (w_model w) (w_files w) (w_log w))
    = pitch_trim H E L m f error w.
  Proof.
    intros Ea Ga Ec Gc. rewrite (trim_given _ _ _ _ _ _ _ Ea Ga Ec Gc).
    erewrite trim_given; [|reflexivity|left; cbn; apply dset_nil|reflexivity|apply dset_nil].
    unfold trim_body. now apply (loop_entry 101 L m error f n0 n0 0 w _ a c x0 y0).
  Qed.

  (** an omitted dictionary drops filename and error *)
  Definition completed (w : W) : W :=
    MkW (if aero_given w then w_aero w else Some default_aero_2) (if ctl_given w then w_ctl w else Some default_ctl)
      (w_model w) (w_files w) (w_log w).
  Definition handed_back (w : W) {A} (q : res A * W) : res A * W :=
    (fst q, MkW (if aero_given w then w_aero (snd q) else w_aero w) (if ctl_given w then w_ctl (snd q) else w_ctl w)
              (w_model (snd q)) (w_files (snd q)) (w_log (snd q))).
  Lemma aero_given_inv (w : W) : aero_given w = true -> exists a, w_aero w = Some a /\ given a.
  Proof.
    unfold aero_given. destruct (w_aero w) as [a|]; cbn; [|discriminate].
    unfold aero_truthy. intros K. exists a. split; [reflexivity|]. destruct a as [d ls]. unfold given. cbn in *. destruct d; [|left; discriminate].
    destruct ls; [right; discriminate|discriminate].
  Qed.
  Lemma ctl_given_inv (w : W) : ctl_given w = true -> exists c, w_ctl w = Some c /\ c <> [].
  Proof.
    unfold ctl_given. destruct (w_ctl w) as [c|]; cbn; [|discriminate]. intros K. exists c. split; [reflexivity|]. destruct c; [discriminate|congruence].
  Qed.
  Lemma trim_omitted L m f error (w : W) : aero_given w = false \/ ctl_given w = false ->
    pitch_trim H E L m f error w = handed_back w (pitch_trim H E L m None default_error (completed w)).
  Proof.
    intros G.
    assert (Hc : pitch_trim H E L m None default_error (completed w) = trim_body H E L m default_error None (completed w)).
    { unfold completed. destruct (aero_given w) eqn:Ga; destruct (ctl_given w) eqn:Gc.
      - destruct G; discriminate.
      - destruct (aero_given_inv _ Ga) as (a & Ea & Ha). eapply trim_given; [exact Ea|exact Ha|reflexivity|discriminate].
      - destruct (ctl_given_inv _ Gc) as (c & Ec & Hc). eapply trim_given; [reflexivity|left; discriminate|exact Ec|exact Hc].
      - eapply trim_given; [reflexivity|left; discriminate|reflexivity|discriminate]. }
    rewrite Hc. unfold completed, handed_back, pitch_trim, with_aero, with_ctl, put_aero, put_ctl.
    destruct (aero_given w) eqn:Ga; destruct (ctl_given w) eqn:Gc; cbn [w_aero w_ctl w_model w_files w_log].
    - destruct G; discriminate.
    - match goal with |- context [trim_body H E L m default_error None ?v] => now destruct (trim_body H E L m default_error None v) end.
    - match goal with |- context [trim_body H E L m default_error None ?v] => now destruct (trim_body H E L m default_error None v) end.
    - match goal with |- context [trim_body H E L m default_error None ?v] => now destruct (trim_body H E L m default_error None v) end.
  Qed.
End Calls.

(** *** affine lift and moment *)
Section Affine.
  Context {S : Type}.
  Variable H : host R S.
  Variable E : menv R.
  Local Open Scope R_scope.
  Hypothesis keeps : forall a c s r a' s', h_solve H a c s = (r, a', s') ->
    an a' = an a /\ (als a <> None -> als a' <> None).
  Variables (base cbase : dict R) (l0 l1 l2 m0 m1 m2 : R).
  Hypothesis affine : forall x y a s, an a = dset base "alpha" x ->
    exists f a' s', h_solve H a (Some (dset cbase "elevator" y)) s = (Ok f, a', s') /\
      FL f = l0 + l1 * x + l2 * y /\ MY f = m0 + m1 * x + m2 * y.
  Hypothesis invertible : l1 * m2 - l2 * m1 <> 0.
  Hypothesis inv_exact : exact_inv (me_inv E).
  Hypothesis inv_finds : finds_inv2 (me_inv E).

  Definition at_ (w : world R S) (x y : R) (n : nat) : Prop :=
    exists a, w_aero w = Some a /\ an a = dset base "alpha" x /\ w_ctl w = Some (dset cbase "elevator" y) /\ List.length (w_log w) = n.

  Lemma run_solve w x y n : at_ w x y n ->
    exists f w', do_solve H w = (Ok f, w') /\ at_ w' x y (Datatypes.S n) /\ FL f = l0 + l1 * x + l2 * y /\ MY f = m0 + m1 * x + m2 * y.
  Proof.
    intros (a & Ea & Ab & Ec & El). destruct (do_solve H w) as [r w'] eqn:K.
    assert (Ha : given a). { left. rewrite Ab. apply dset_nil. }
    destruct (do_solve_run H keeps _ _ _ _ K Ea Ha) as (a' & A1 & _ & A2 & A3).
    destruct (affine x y a (w_model w) Ab) as (f & a'' & s'' & B1 & B2 & B3). rewrite Ec, B1 in A2.
    injection A2 as E1 E2 _. subst r a'. exists f, w'. split; [reflexivity|]. split; [|split; assumption].
    exists a''. rewrite A3. cbn [w_aero w_ctl w_log]. repeat split; try congruence. rewrite app_length, El. cbn. lia.
  Qed.
  Lemma run_alpha w x y n x' : at_ w x y n -> exists w', set_aero "alpha" x' w = (Ok tt, w') /\ at_ w' x' y n.
  Proof.
    intros (a & Ea & Ab & Ec & El). eexists. split; [apply (set_aero_run _ _ _ _ Ea)|]. eexists. split; [reflexivity|]. cbn. rewrite Ab, dset_twice. auto.
  Qed.
  Lemma run_elevator w x y n y' : at_ w x y n -> exists w', set_ctl "elevator" y' w = (Ok tt, w') /\ at_ w' x y' n.
  Proof.
    intros (a & Ea & Ab & Ec & El). eexists. split; [apply (set_ctl_run _ _ _ _ Ec)|]. eexists. split; [exact Ea|]. cbn. rewrite dset_twice. auto.
  Qed.
  Lemma run_get w x y n : at_ w x y n -> get_aero "alpha" n0 w = (Ok x, w) /\ get_ctl "elevator" n0 w = (Ok y, w).
  Proof.
    intros (a & Ea & Ab & Ec & El). split.
    - rewrite (get_aero_some _ _ _ _ Ea). unfold dgetd. now rewrite Ab, dget_dset_same.
    - rewrite (get_ctl_some _ _ _ _ Ec). unfold dgetd. now rewrite dget_dset_same.
  Qed.

  Lemma run_slope g g0 g1 g2 w x y n : at_ w x y n ->
    (forall f x y, FL f = l0 + l1 * x + l2 * y -> MY f = m0 + m1 * x + m2 * y -> g f = g0 + g1 * x + g2 * y) ->
    exists w', slope_of H g w = (Ok (g1 * (180 / PI), g2 * (180 / PI)), w') /\ at_ w' x y (4 + n).
  Proof.
    intros A Hg. unfold slope_of. cbv zeta. set (q := ndec 25 2).
    assert (Eq : q = 1 / 4). { unfold q. rnum. unfold Rdec. cbn. field. }
    assert (P0 : PI <> 0) by apply PI_neq0.
    rewrite (sbind_run _ _ _ _ _ (proj1 (run_get _ _ _ _ A))).
    unfold around_aero, sbind at 1.
    destruct (run_alpha _ _ _ _ (nsub x q) A) as (w1 & K1 & A1). rewrite (sbind_run _ _ _ _ _ K1).
    destruct (run_solve _ _ _ _ A1) as (f1 & w2 & K2 & A2 & F1 & G1). rewrite (sbind_run _ _ _ _ _ K2).
    destruct (run_alpha _ _ _ _ (nadd x q) A2) as (w3 & K3 & A3). rewrite (sbind_run _ _ _ _ _ K3).
    destruct (run_solve _ _ _ _ A3) as (f2 & w4 & K4 & A4 & F2 & G2). rewrite (sbind_run _ _ _ _ _ K4).
    unfold sret at 1. cbn [fst snd].
    destruct (run_alpha _ _ _ _ x A4) as (w5 & K5 & A5). rewrite (sbind_run _ _ _ _ _ K5).
    rewrite (sbind_run _ _ _ _ _ (proj2 (run_get _ _ _ _ A5))).
    unfold around_ctl, sbind at 1.
    destruct (run_elevator _ _ _ _ (nsub y q) A5) as (w6 & K6 & A6). rewrite (sbind_run _ _ _ _ _ K6).
    destruct (run_solve _ _ _ _ A6) as (f3 & w7 & K7 & A7 & F3 & G3). rewrite (sbind_run _ _ _ _ _ K7).
    destruct (run_elevator _ _ _ _ (nadd y q) A7) as (w8 & K8 & A8). rewrite (sbind_run _ _ _ _ _ K8).
    destruct (run_solve _ _ _ _ A8) as (f4 & w9 & K9 & A9 & F4 & G4). rewrite (sbind_run _ _ _ _ _ K9).
    unfold sret at 1. cbn [fst snd].
    destruct (run_elevator _ _ _ _ y A9) as (w10 & K10 & A10). rewrite (sbind_run _ _ _ _ _ K10).
    exists w10. split; [|exact A10].
    rewrite (Hg _ _ _ F1 G1), (Hg _ _ _ F2 G2), (Hg _ _ _ F3 G3), (Hg _ _ _ F4 G4).
    rnum. rewrite Eq. unfold sret. f_equal. f_equal. f_equal; field; auto.
  Qed.

  Lemma inv2 (a b c d u v : R) Ji : a * d - b * c <> 0 -> me_inv E [[a; b]; [c; d]] = Some Ji ->
    mat_vec Ji [u; v] = [(d * u - b * v) / (a * d - b * c); (a * v - c * u) / (a * d - b * c)].
  Proof.
    intros Hd K. destruct (inv_exact _ _ K) as (_ & _ & _ & Q).
    specialize (Q [(d * u - b * v) / (a * d - b * c); (a * v - c * u) / (a * d - b * c)] eq_refl).
    rewrite <- Q at 1. unfold mat_vec, row_times. apply map_ext. intros row. f_equal. f_equal.
    cbn [map map2]. unfold nsum. cbn. f_equal; [|f_equal]; field; exact Hd.
  Qed.

  Lemma affine_step fuel L m error f x y i w n : (i < 100)%nat -> 0 < error -> at_ w x y n ->
    ~ (Rabs (l0 + l1 * x + l2 * y - L) < error /\ Rabs (m0 + m1 * x + m2 * y - m) < error) ->
    exists x' y' w', l0 + l1 * x' + l2 * y' = L /\ m0 + m1 * x' + m2 * y' = m /\ at_ w' x y (9 + n) /\
      trim_loop H E (Datatypes.S fuel) L m error f x y i w = trim_loop H E fuel L m error f x' y' (Datatypes.S i) w'.
  Proof.
    intros Hi He A Hn. cbn [trim_loop].
    destruct (run_alpha _ _ _ _ x A) as (w1 & K1 & A1). rewrite (sbind_run _ _ _ _ _ K1).
    destruct (run_elevator _ _ _ _ y A1) as (w2 & K2 & A2). rewrite (sbind_run _ _ _ _ _ K2).
    destruct (run_solve _ _ _ _ A2) as (g & w3 & K3 & A3 & F & M). rewrite (sbind_run _ _ _ _ _ K3). cbv zeta.
    rewrite F, M.
    destruct (nltb (nabs (nsub (l0 + l1 * x + l2 * y) L)) error && nltb (nabs (nsub (m0 + m1 * x + m2 * y) m)) error) eqn:Hb.
    { exfalso. apply Hn. apply andb_true_iff in Hb. destruct Hb as [B1 B2]. cbn in B1, B2. apply Rltb_true in B1, B2. auto. }
    destruct (run_slope (@FL R) l0 l1 l2 _ _ _ _ A3) as (w4 & K4 & A4); [auto|]. rewrite (sbind_run _ _ _ _ _ K4).
    destruct (run_slope (@MY R) m0 m1 m2 _ _ _ _ A4) as (w5 & K5 & A5); [auto|]. rewrite (sbind_run _ _ _ _ _ K5).
    assert (P0 : PI <> 0) by apply PI_neq0.
    assert (P1 : 180 / PI <> 0). { unfold Rdiv. apply Rmult_integral_contrapositive_currified; [lra|now apply Rinv_neq_0_compat]. }
    set (p := 180 / PI) in *.
    destruct (neqb (l2 * p) n0 && neqb (m2 * p) n0) eqn:Hz.
    { exfalso. apply andb_true_iff in Hz. destruct Hz as [Z1 Z2]. cbn in Z1, Z2. apply Reqb_true in Z1, Z2.
      apply invertible. assert (l2 = 0) by (apply (Rmult_eq_reg_r p); [lra|exact P1]). assert (m2 = 0) by (apply (Rmult_eq_reg_r p); [lra|exact P1]).
      subst. ring. }
    assert (Hd : (l1 * p) * (m2 * p) - (l2 * p) * (m1 * p) <> 0).
    { replace ((l1 * p) * (m2 * p) - (l2 * p) * (m1 * p)) with ((l1 * m2 - l2 * m1) * (p * p)) by ring.
      apply Rmult_integral_contrapositive_currified; [exact invertible|]. now apply Rmult_integral_contrapositive_currified. }
    unfold np_inv. destruct (me_inv E [[l1 * p; l2 * p]; [m1 * p; m2 * p]]) as [Ji|] eqn:EJ; [|now destruct (inv_finds _ _ _ _ Hd)].
    rewrite (sbind_run (slift (Ok Ji)) _ _ Ji _ eq_refl).
    rewrite (inv2 _ _ _ _ _ _ _ Hd EJ).
    destruct (Nat.ltb 100 (Datatypes.S i)) eqn:El; [apply Nat.ltb_lt in El; lia|].
    eexists _, _, w5. split; [|split; [|split; [|reflexivity]]]; [| |exact A5].
    - rnum. unfold p in *. field. split; [exact P0|]. intros Q. apply invertible. nra.
    - rnum. unfold p in *. field. split; [exact P0|]. intros Q. apply invertible. nra.
  Qed.
  Lemma affine_stop fuel L m error f x y i w n xe ye : at_ w xe ye n ->
    Rabs (l0 + l1 * x + l2 * y - L) < error -> Rabs (m0 + m1 * x + m2 * y - m) < error ->
    exists w', trim_loop H E (Datatypes.S fuel) L m error f x y i w = (Ok (Some (x, y)), w') /\ at_ w' x y (1 + n).
  Proof.
    intros A B1 B2. cbn [trim_loop].
    destruct (run_alpha _ _ _ _ x A) as (w1 & K1 & A1). rewrite (sbind_run _ _ _ _ _ K1).
    destruct (run_elevator _ _ _ _ y A1) as (w2 & K2 & A2). rewrite (sbind_run _ _ _ _ _ K2).
    destruct (run_solve _ _ _ _ A2) as (g & w3 & K3 & A3 & F & M). rewrite (sbind_run _ _ _ _ _ K3). cbv zeta.
    rewrite F, M. cbn [nltb nabs nsub Rnum].
    apply Rltb_true in B1, B2. rewrite B1, B2. cbn [andb].
    unfold sbind. rewrite write_run. eexists. split; [reflexivity|].
    destruct A3 as (a & C1 & C2 & C3 & C4). exists a. destruct (named f); cbn [put_file w_aero w_ctl w_log]; auto.
  Qed.
  Lemma affine_trim L m error f w a c : 0 < error -> w_aero w = Some a -> given a -> an a = base -> w_ctl w = Some c -> c <> [] -> c = cbase -> w_log w = [] ->
    exists x y w', pitch_trim H E L m f error w = (Ok (Some (x, y)), w') /\
      ((x = 0 /\ y = 0 /\ Rabs (l0 - L) < error /\ Rabs (m0 - m) < error /\ List.length (w_log w') = 1%nat) \/
       (l0 + l1 * x + l2 * y = L /\ m0 + m1 * x + m2 * y = m /\ List.length (w_log w') = 10%nat)).
  Proof.
    intros He Ea Ga Eb Ec Gc Eb' El. rewrite (trim_given H E _ _ _ _ _ _ _ Ea Ga Ec Gc). unfold trim_body.
    assert (A : at_ (MkW (Some (MkAero (dset (an a) "alpha" 0) (als a))) (Some (dset c "elevator" 0)) (w_model w) (w_files w) (w_log w)) 0 0 0).
    { exists (MkAero (dset (an a) "alpha" 0) (als a)). cbn. rewrite Eb, Eb', El. auto. }
    erewrite <- (loop_entry H E 101); [|exact Ea|exact Ec|reflexivity].
    assert (E0 : (n0 : R) = 0) by (unfold n0; now rnum). rewrite !E0 in *. clear E0.
    destruct (Rlt_dec (Rabs (l0 - L)) error) as [D1|D1]; [destruct (Rlt_dec (Rabs (m0 - m)) error) as [D2|D2]|].
    - destruct (affine_stop 101 L m error f 0 0 0 _ _ _ _ A) as (w' & Q1 & (a' & Q2 & Q3 & Q4 & Q5)).
      { now replace (l0 + l1 * 0 + l2 * 0 - L) with (l0 - L) by ring. } { now replace (m0 + m1 * 0 + m2 * 0 - m) with (m0 - m) by ring. }
      exists 0, 0, w'. split; [exact Q1|]. left. auto 6.
    - destruct (affine_step 101 L m error f 0 0 0 _ _ ltac:(lia) He A) as (x & y & v & X1 & X2 & X3 & X4).
      { intros [_ Q]. apply D2. now replace (m0 - m) with (m0 + m1 * 0 + m2 * 0 - m) by ring. }
      destruct (affine_stop 100 L m error f x y 1 _ _ _ _ X3) as (w' & Q1 & (a' & Q2 & Q3 & Q4 & Q5)).
      { rewrite X1. replace (L - L) with 0 by ring. now rewrite Rabs_R0. } { rewrite X2. replace (m - m) with 0 by ring. now rewrite Rabs_R0. }
      exists x, y, w'. split; [rewrite X4; exact Q1|]. right. auto.
    - destruct (affine_step 101 L m error f 0 0 0 _ _ ltac:(lia) He A) as (x & y & v & X1 & X2 & X3 & X4).
      { intros [Q _]. apply D1. now replace (l0 - L) with (l0 + l1 * 0 + l2 * 0 - L) by ring. }
      destruct (affine_stop 100 L m error f x y 1 _ _ _ _ X3) as (w' & Q1 & (a' & Q2 & Q3 & Q4 & Q5)).
      { rewrite X1. replace (L - L) with 0 by ring. now rewrite Rabs_R0. } { rewrite X2. replace (m - m) with 0 by ring. now rewrite Rabs_R0. }
      exists x, y, w'. split; [rewrite X4; exact Q1|]. right. auto.
  Qed.
End Affine.
