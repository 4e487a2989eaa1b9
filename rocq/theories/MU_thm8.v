(** target_lift (C41, C42). *)
From Coq Require Import Reals ZArith String Bool Arith Lia Lra List.
From Verif Require Import Base Num RVec Geometry Grid LLModel PropModel Spec_LL LL_state LL_R MU Spec_MU MU_thm MU_thm2 MU_thm3.
Import ListNotations.
Local Open Scope string_scope.

Section Generic.
  Context {T : Type} {N : num_ops T} {S : Type}.
  Variable H : host T S.
  Notation W := (world T S).
  Hypothesis keeps : forall a c s r a' s', h_solve H a c s = (r, a', s') ->
    an a' = an a /\ (als a <> None -> als a' <> None).

  (** the way a search ends *)
  Definition ending (base : dict T) (c : option (dict T)) (target error : T) (f : option string) (n : nat)
             (l l' : list (call T S)) (r : res (answer T)) : Prop :=
    match r with
    | Ok (Answer x) =>
        h_parts H = true /\
        exists pre k0 k1 x0 y0 x1 y1, l = (pre ++ [k0; k1])%list /\
          lift_at base c target k0 x0 y0 /\ lift_at base c target k1 x1 y1 /\
          x = nsub x1 (ndiv (nmul y1 (nsub x1 x0)) (nsub y1 y0)) /\ nltb (nabs (nsub x x1)) error = true
    | Ok (ErrorRecord m) => m = "unliftable" /\ named f <> None /\ n = 21%nat
    | Err e => (e = ZeroDivisionError /\ h_parts H = false) \/
               (e = RuntimeError /\ named f = None /\ n = 21%nat) \/
               (exists l0 k, l' = (l0 ++ [k])%list /\ k_r k = Err e)
    end.

  Lemma lift_loop_spec fuel : forall target error f base x0 y0 x1 y1 i (w : W) r w' a pre k0 k1,
    lift_loop H fuel target error f x0 y0 x1 y1 i w = (r, w') ->
    w_aero w = Some a -> an a = dset base "alpha" x1 -> w_log w = (pre ++ [k0; k1])%list ->
    lift_at base (w_ctl w) target k0 x0 y0 -> lift_at base (w_ctl w) target k1 x1 y1 ->
    (i + fuel = 22)%nat -> (i <= 20)%nat ->
    exists l a', w' = MkW (Some a') (w_ctl w) (w_model w') (w_files w) (w_log w ++ l) /\
      (List.length l + i <= 21)%nat /\
      Forall (fun k => k_c k = w_ctl w /\ exists x, an (k_a k) = dset base "alpha" x) l /\
      ending base (w_ctl w) target error f (List.length l + i) (w_log w') l r.
  Proof.
    induction fuel as [|fuel IH]; intros target error f base x0 y0 x1 y1 i w r w' a pre k0 k1 K Ea Ab Hl L0 L1 Hf Hi; [lia|].
    cbn [lift_loop] in K. destruct (h_parts H) eqn:Hp; cbn [negb] in K.
    2: { injection K as <- <-. exists [], a. split; [rewrite app_nil_r, <- Ea; now destruct w|].
         split; [cbn; lia|]. split; [constructor|]. left. auto. }
    destruct (nltb (nabs (nsub (nsub x1 (ndiv (nmul y1 (nsub x1 x0)) (nsub y1 y0))) x1)) error) eqn:Hb.
    { injection K as <- <-. exists [], a. split; [rewrite app_nil_r, <- Ea; now destruct w|].
      split; [cbn; lia|]. split; [constructor|]. split; [exact Hp|].
      exists pre, k0, k1, x0, y0, x1, y1. auto. }
    set (x2 := nsub x1 (ndiv (nmul y1 (nsub x1 x0)) (nsub y1 y0))) in *.
    unfold set_aero, smod in K. unfold sbind at 1 in K. rewrite Ea in K. cbn [option_map put_aero] in K.
    destruct (do_solve H (put_aero (Some (MkAero (dset (an a) "alpha" x2) (als a))) w)) as [r1 w1] eqn:Ks.
    destruct (do_solve_run H keeps _ _ _ _ Ks eq_refl (set_given _ _ _ _)) as (a1 & A1 & A1' & A2 & A3).
    cbn [put_aero w_ctl w_files w_log w_model an] in A1, A2, A3. rewrite Ab, dset_twice in A1.
    unfold sbind in K. rewrite Ks in K.
    set (k2 := MkCall (MkAero (dset (an a) "alpha" x2) (als a)) (w_ctl w) r1 (w_model w1)) in *.
    assert (Ak : an (k_a k2) = dset base "alpha" x2) by (cbn; now rewrite Ab, dset_twice).
    destruct r1 as [FM|e].
    2: { injection K as <- <-. exists [k2], a1. split; [exact A3|]. split; [cbn; lia|].
         split; [constructor; [split; [reflexivity|eauto]|constructor]|]. right. right. exists [], k2. auto. }
    cbv zeta in K. set (y2 := nsub (FL FM) target) in *.
    assert (L2 : lift_at base (w_ctl w) target k2 x2 y2) by (exists FM; repeat split; auto).
    destruct (Nat.ltb 20 (Datatypes.S i)) eqn:Hlt.
    - apply Nat.ltb_lt in Hlt. assert (i = 20%nat) by lia. subst i.
      destruct (named f) eqn:Ef; injection K as <- <-; exists [k2], a1; (split; [exact A3|]); (split; [cbn; lia|]);
        (split; [constructor; [split; [reflexivity|eauto]|constructor]|]).
      + cbn. repeat split. congruence.
      + right. left. auto.
    - apply Nat.ltb_ge in Hlt.
      assert (Hl1 : w_log w1 = ((pre ++ [k0]) ++ [k1; k2])%list).
      { rewrite A3. cbn [w_log]. rewrite Hl, <- !app_assoc. reflexivity. }
      assert (Ec1 : w_ctl w1 = w_ctl w) by now rewrite A3.
      assert (Ef1 : w_files w1 = w_files w) by now rewrite A3.
      rewrite <- Ec1 in L1, L2.
      destruct (IH _ _ _ base _ _ _ _ _ _ _ _ a1 (pre ++ [k0])%list k1 k2 K ltac:(now rewrite A3) A1 Hl1 L1 L2 ltac:(lia) ltac:(lia))
        as (l & a' & B1 & B2 & B3 & B4).
      exists (k2 :: l), a'. rewrite Ec1, Ef1 in *. split.
      { rewrite B1 at 1. rewrite A3. cbn [w_log]. now rewrite <- app_assoc. }
      split; [cbn; lia|]. split; [constructor; [split; [reflexivity|eauto]|exact B3]|].
      replace (List.length (k2 :: l) + i)%nat with (List.length l + Datatypes.S i)%nat by (cbn; lia).
      unfold ending in *. destruct r as [[x|m]|e]; auto.
      destruct B4 as [B4|[B4|(l0 & k & -> & B4)]]; auto. right. right. exists (k2 :: l0), k. auto.
  Qed.

  Lemma lift_body_spec target error f (w : W) r w' a : lift_body H target error f a w = (r, w') ->
    w_aero w = Some a ->
    exists l, w' = MkW (Some a) (w_ctl w) (w_model w') (w_files w) (w_log w ++ l) /\
      (List.length l <= 23)%nat /\
      Forall (fun k => k_c k = w_ctl w /\ exists x, an (k_a k) = dset (an a) "alpha" x) l /\
      match dget (an a) "alpha" with
      | None => r = Err KeyError /\ l = []
      | Some x0 =>
          (List.length l <= 2 -> match r with Err _ => True | Ok (Answer _) => True | Ok (ErrorRecord _) => False end)%nat /\
          (forall k0 l0, l = k0 :: l0 -> an (k_a k0) = dset (an a) "alpha" x0) /\
          (forall k0 k1 l0, l = k0 :: k1 :: l0 ->
             an (k_a k1) = dset (an a) "alpha" (nadd (nmul x0 (ndec 15 1)) (ndec 1 1))) /\
          ending (an a) (w_ctl w) target error f (List.length l - 2) (w_log w') l r
      end.
  Proof.
    intros K Ea. unfold lift_body, dlookup in K.
    destruct (dget (an a) "alpha") as [x0|] eqn:Ex.
    2: { cbn in K. injection K as <- <-. exists []. rewrite app_nil_r, <- Ea. split; [now destruct w|].
         split; [cbn; lia|]. split; [constructor|]. auto. }
    unfold sbind at 1, slift at 1 in K. cbv zeta in K.
    set (x1 := nadd (nmul x0 (ndec 15 1)) (ndec 1 1)) in *.
    unfold sbind at 1 in K. unfold with_aero at 1 in K.
    destruct (do_solve H (put_aero (Some (MkAero (dset (an a) "alpha" x0) (als a))) w)) as [r0 w0] eqn:K0.
    destruct (do_solve_run H keeps _ _ _ _ K0 eq_refl (set_given _ _ _ _)) as (a1 & A1 & A1' & A2 & A3).
    cbn [put_aero w_ctl w_files w_log w_model an] in A1, A2, A3.
    set (k0 := MkCall (MkAero (dset (an a) "alpha" x0) (als a)) (w_ctl w) r0 (w_model w0)) in *.
    destruct r0 as [FM0|e].
    2: { injection K as <- <-. rewrite A3. exists [k0]. cbn [put_aero w_ctl w_files w_log w_model]. rewrite Ea.
         split; [reflexivity|]. split; [cbn; lia|]. split; [constructor; [split; [reflexivity|eexists; reflexivity]|constructor]|].
         split; [auto|]. split; [intros ? ? Eq; injection Eq as <- <-; reflexivity|]. split; [intros ? ? ? Eq; discriminate|].
         right. right. exists [], k0. auto. }
    unfold with_aero in K.
    unfold sbind at 1 in K. cbn [put_aero w_aero w_ctl w_files w_log w_model] in K. rewrite A3 in K.
    cbn [put_aero w_aero w_ctl w_files w_log w_model] in K.
    match type of K with context [do_solve H ?x] => destruct (do_solve H x) as [r1 w1] eqn:K1 end.
    destruct (do_solve_run H keeps _ _ _ _ K1 eq_refl (set_given _ _ _ _)) as (a2 & B1 & B1' & B2 & B3).
    cbn [put_aero w_ctl w_files w_log w_model an] in B1, B2, B3.
    set (k1 := MkCall (MkAero (dset (an a) "alpha" x1) (als a)) (w_ctl w) r1 (w_model w1)) in *.
    assert (Hlog : w_log w1 = (w_log w ++ [k0; k1])%list) by (rewrite B3; cbn [w_log]; now rewrite <- app_assoc).
    destruct r1 as [FM1|e].
    2: { injection K as <- <-. rewrite B3. exists [k0; k1]. cbn [put_aero w_ctl w_files w_log w_model]. rewrite Ea.
         split; [now rewrite <- app_assoc|]. split; [cbn; lia|].
         split; [do 2 (constructor; [split; [reflexivity|eexists; reflexivity]|]); constructor|].
         split; [auto|]. split; [intros ? ? Eq; injection Eq as <- <-; reflexivity|].
         split; [intros ? ? ? Eq; injection Eq as <- <- <-; reflexivity|].
         right. right. exists [k0], k1. auto. }
    destruct (lift_loop H 22 target error f x0 (nsub (FL FM0) target) x1 (nsub (FL FM1) target) 0 w1) as [r2 w2] eqn:K2.
    assert (Ec1 : w_ctl w1 = w_ctl w) by (rewrite B3; reflexivity).
    assert (Ef1 : w_files w1 = w_files w) by (rewrite B3; reflexivity).
    assert (Ea1 : w_aero w1 = Some a2) by (rewrite B3; reflexivity).
    destruct (lift_loop_spec 22 target error f (an a) _ _ _ _ 0 _ _ _ a2 (w_log w) k0 k1 K2)
      as (l & a' & C1 & C2 & C3 & C4).
    { exact Ea1. } { exact B1. } { exact Hlog. }
    { exists FM0. rewrite Ec1. repeat split. } { exists FM1. rewrite Ec1. repeat split. } { reflexivity. } { lia. }
    clear K2. injection K as <- <-. exists (k0 :: k1 :: l). cbn [put_aero w_ctl w_files w_log w_model].
    rewrite Ec1, Ef1, Hlog in C1. rewrite Ec1 in C3, C4.
    split.
    { assert (D1 : w_ctl w2 = w_ctl w) by (rewrite C1; reflexivity). assert (D2 : w_files w2 = w_files w) by (rewrite C1; reflexivity).
      assert (D3 : w_log w2 = (w_log w ++ k0 :: k1 :: l)%list) by (rewrite C1; cbn [w_log]; now rewrite <- app_assoc).
      unfold put_aero. cbn [w_model]. rewrite D1, D2, D3, Ea. reflexivity. }
    split. { cbn [List.length]. lia. }
    split. { constructor; [split; [reflexivity|eexists; reflexivity]|]. constructor; [split; [reflexivity|eexists; reflexivity]|exact C3]. }
    split. { intros Hlen. destruct r2 as [[x|m]|e]; auto. cbn in Hlen. unfold ending in C4. destruct C4 as (_ & _ & C4). destruct l; cbn [List.length] in *; lia. }
    split. { intros ? ? Eq. injection Eq as <- _. reflexivity. }
    split. { intros ? ? ? Eq. injection Eq as _ <- _. reflexivity. }
    replace (List.length (k0 :: k1 :: l) - 2)%nat with (List.length l + 0)%nat by (cbn; lia).
    unfold ending in *. destruct r2 as [[x|m]|e]; auto.
    destruct C4 as [C4|[C4|(l0 & k & -> & C4)]]; auto. right. right. exists (k0 :: k1 :: l0), k. auto.
  Qed.
End Generic.

Section Top.
  Context {T : Type} {N : num_ops T} {S : Type}.
  Variable H : host T S.
  Notation W := (world T S).
  Hypothesis keeps : forall a c s r a' s', h_solve H a c s = (r, a', s') ->
    an a' = an a /\ (als a <> None -> als a' <> None).

  Definition report (r : answer T) : content T :=
    match r with Answer x => F_numbers [("alpha", x)] | ErrorRecord m => F_error m end.
  Definition write_report (f : option string) (r : res (answer T)) (files : dict (list (content T))) :=
    match named f, r with Some n, Ok x => dset files n [report x] | _, _ => files end.

  Lemma write_run (f : option string) (c : content T) (w : W) :
    write_if f c w = (Ok tt, match named f with Some n => put_file n [c] w | None => w end).
  Proof. unfold write_if. destruct (named f); reflexivity. Qed.

  Lemma target_lift_given target f error (w : W) a r w' :
    w_aero w = Some a -> given a -> target_lift H target f error w = (r, w') ->
    exists v, lift_body H target error f a w = (r, v) /\
      w' = MkW (w_aero v) (w_ctl v) (w_model v) (write_report f r (w_files v)) (w_log v).
  Proof.
    intros Ea Ha K. unfold target_lift in K. unfold sbind at 1 in K. rewrite Ea in K.
    apply truthy_given in Ha. cbn [opt_truthy] in K. rewrite Ha in K.
    destruct (lift_body H target error f a w) as [[x|e] v].
    - unfold sbind in K. fold (report x) in K. rewrite write_run in K. exists v. unfold write_report.
      destruct (named f); injection K as <- <-; (split; [reflexivity|]); [reflexivity|now destruct v].
    - injection K as <- <-. exists v. split; [reflexivity|]. unfold write_report. destruct (named f); now destruct v.
  Qed.
  Lemma target_lift_omitted target f error (w : W) : aero_given w = false ->
    let v := target_lift H target None default_error (put_aero (Some default_aero) w) in
    target_lift H target f error w = (fst v, MkW (w_aero w) (w_ctl (snd v)) (w_model (snd v))
                                              (write_report f (fst v) (w_files (snd v))) (w_log (snd v))).
  Proof.
    intros G. cbv zeta.
    assert (G' : opt_truthy aero_truthy (w_aero w) = None). { unfold aero_given in G. now destruct (opt_truthy aero_truthy (w_aero w)). }
    destruct (target_lift H target None default_error (put_aero (Some default_aero) w)) as [r w'] eqn:K.
    assert (Gd : given (default_aero : aero_state T)) by (left; discriminate).
    destruct (target_lift_given target None default_error (put_aero (Some default_aero) w) default_aero _ _ eq_refl Gd K) as (v & K1 & K2).
    unfold target_lift. unfold sbind at 1. rewrite G'. unfold with_aero. rewrite K1. cbn [fst snd].
    unfold write_report at 1 in K2. cbn [named] in K2. subst w'. cbn [w_ctl w_model w_files w_log].
    destruct r as [x|e].
    - unfold sbind. fold (report x). rewrite write_run. unfold write_report. destruct (named f); reflexivity.
    - unfold write_report. destruct (named f); reflexivity.
  Qed.

  (** *** never an answer when the starting points coincide *)
  Variable nan : T.
  Hypothesis nans : has_nan N nan.

  Lemma nan_loop fuel : forall target error f x0 y0 y1 i (w : W) x,
    fst (lift_loop H fuel target error f x0 y0 nan y1 i w) <> Ok (Answer x).
  Proof.
    induction fuel as [|fuel IH]; intros target error f x0 y0 y1 i w x; [discriminate|].
    cbn [lift_loop]. destruct (h_parts H); cbn [negb]; [|discriminate].
    rewrite !(nan_sub_l nans), (nan_less nans).
    unfold sbind at 1, set_aero, smod. unfold sbind.
    match goal with |- context [do_solve H ?v] => destruct (do_solve H v) as [[r|e] w1]; [|discriminate] end.
    destruct (Nat.ltb 20 (Datatypes.S i)); [destruct (named f); discriminate|]. apply IH.
  Qed.
  Lemma nan_start fuel target error f x0 y0 i (w : W) x :
    fst (lift_loop H fuel target error f x0 y0 x0 y0 i w) <> Ok (Answer x).
  Proof.
    destruct fuel as [|fuel]; [discriminate|].
    cbn [lift_loop]. destruct (h_parts H); cbn [negb]; [|discriminate].
    rewrite (nan_zero_zero nans), !(nan_sub_r nans), !(nan_sub_l nans), (nan_less nans).
    unfold sbind at 1, set_aero, smod. unfold sbind.
    match goal with |- context [do_solve H ?v] => destruct (do_solve H v) as [[r|e] w1]; [|discriminate] end.
    destruct (Nat.ltb 20 (Datatypes.S i)); [destruct (named f); discriminate|]. apply nan_loop.
  Qed.
End Top.

Section Fixed.
  Context {T : Type} {N : num_ops T}.
  Variable E : menv T.
  Variable X : machup T.
  Variable ps : option (dict (pval T)).
  Notation H := (host_of E X ps).
  Hypothesis no_props : mm_props X = [].

  Lemma same_start target error f (w : world T (mstate T)) a c h x0 x nan :
    has_nan N nan -> w_aero w = Some a -> given a -> w_ctl w = Some c -> c <> [] -> w_model w = mu_after E X h ->
    dget (an a) "alpha" = Some x0 -> nadd (nmul x0 (ndec 15 1)) (ndec 1 1) = x0 ->
    fst (target_lift H target f error w) <> Ok (Answer x).
  Proof.
    intros Hn Ea Ha Ec Hc Eh Ex Hx.
    destruct (target_lift H target f error w) as [r w'] eqn:K.
    destruct (target_lift_given H _ _ _ _ _ _ _ Ea Ha K) as (v & K1 & _). cbn [fst]. clear K.
    unfold lift_body, dlookup in K1. rewrite Ex in K1. unfold sbind at 1, slift at 1 in K1. cbv zeta in K1. rewrite Hx in K1.
    unfold sbind at 1 in K1. unfold with_aero at 1 in K1.
    destruct (do_solve H (put_aero (Some (MkAero (dset (an a) "alpha" x0) (als a))) w)) as [r0 w0] eqn:K0.
    destruct (do_solve_run H (host_keeps E X ps) _ _ _ _ K0 eq_refl (set_given _ _ _ _)) as (a1 & A1 & A1' & A2 & A3).
    cbn [put_aero w_ctl w_files w_log w_model an] in A1, A2, A3.
    destruct r0 as [FM0|e]; [|injection K1 as <- <-; discriminate].
    unfold with_aero in K1. unfold sbind at 1 in K1. rewrite A3 in K1. cbn [put_aero w_aero w_ctl w_files w_log w_model] in K1.
    match type of K1 with context [do_solve H ?x] => destruct (do_solve H x) as [r1 w1] eqn:K2 end.
    destruct (do_solve_run H (host_keeps E X ps) _ _ _ _ K2 eq_refl (set_given _ _ _ _)) as (a2 & B1 & B1' & B2 & B3).
    cbn [put_aero w_ctl w_files w_log w_model an] in B1, B2, B3.
    assert (Er : r1 = Ok FM0).
    { set (b := MkAero (dset (an a) "alpha" x0) (als a)) in *.
      assert (Gb : given b) by apply set_given. assert (Gc : given_control (w_ctl w)) by (exists c; auto).
      pose proof (wings_forces E X ps h b (w_ctl w) no_props Gb Gc) as F1. rewrite Eh in A2. rewrite A2 in F1. cbn [fst] in F1.
      assert (Hm : w_model w0 = mu_after E X (h ++ [MkMuCall (mm_cg X) ps b (w_ctl w)])).
      { unfold mu_after. rewrite fold_left_app. cbn [fold_left mc_cg mc_ps mc_aero mc_ctl]. fold (mu_after E X h).
        replace (with_cg (mm_cg X) X) with X by (destruct X; reflexivity). now rewrite A2. }
      rewrite Hm in B2.
      pose proof (wings_forces E X ps (h ++ [MkMuCall (mm_cg X) ps b (w_ctl w)]) b (w_ctl w) no_props Gb Gc) as F2. rewrite B2 in F2. cbn [fst] in F2. congruence. }
    subst r1.
    match type of K1 with context [lift_loop H 22 ?t ?e ?f ?x ?y ?x ?y 0 ?w] =>
      pose proof (nan_start H nan Hn 22 t e f x y 0 w) as Hno; destruct (lift_loop H 22 t e f x y x y 0 w) as [r2 w2] end.
    injection K1 as <- <-. exact (Hno _).
  Qed.
End Fixed.

(** *** affine lift *)
Section Affine.
  Context {S : Type}.
  Variable H : host R S.
  Local Open Scope R_scope.
  Hypothesis keeps : forall a c s r a' s', h_solve H a c s = (r, a', s') ->
    an a' = an a /\ (als a <> None -> als a' <> None).
  Variables (base : dict R) (c : option (dict R)) (m b : R).
  (** lift is [m * alpha + b] whatever the state *)
  Hypothesis affine : forall x a s, an a = dset base "alpha" x ->
    exists f a' s', h_solve H a c s = (Ok f, a', s') /\ FL f = m * x + b.
  Hypothesis parts : h_parts H = true.
  Hypothesis slope : m <> 0.

  Lemma solve_affine w x a : w_aero w = Some a -> an a = dset base "alpha" x -> w_ctl w = c ->
    exists f a' w', do_solve H w = (Ok f, w') /\ FL f = m * x + b /\ w_aero w' = Some a' /\ an a' = dset base "alpha" x /\ w_ctl w' = c.
  Proof.
    intros Ea Ab Ec. destruct (do_solve H w) as [r w'] eqn:K.
    assert (Ha : given a). { left. rewrite Ab. intros K0. pose proof (dset_truthy base "alpha" x) as L. now rewrite K0 in L. }
    destruct (do_solve_run H keeps _ _ _ _ K Ea Ha) as (a' & A1 & _ & A2 & A3).
    destruct (affine x a (w_model w) Ab) as (f & a'' & s'' & B1 & B2). rewrite Ec, B1 in A2.
    injection A2 as E1 E2 _. subst r a'. exists f, a'', w'. split; [reflexivity|]. split; [exact B2|].
    split; [now rewrite A3|]. split; [congruence|]. now rewrite A3.
  Qed.

  Lemma affine_loop n target error f x0 x1 i w a :
    x0 <> x1 -> 0 < error -> (i <= 19)%nat -> w_aero w = Some a -> an a = dset base "alpha" x1 -> w_ctl w = c ->
    fst (lift_loop H (Datatypes.S (Datatypes.S n)) target error f x0 (m * x0 + b - target) x1 (m * x1 + b - target) i w)
      = Ok (Answer ((target - b) / m)).
  Proof.
    intros Hx He Hi Ea Ab Ec.
    assert (Ex2 : x1 - (m * x1 + b - target) * (x1 - x0) / (m * x1 + b - target - (m * x0 + b - target)) = (target - b) / m).
    { field. split; [exact slope|]. replace (m * x1 + b - target - (m * x0 + b - target)) with (m * (x1 - x0)) by ring.
      apply Rmult_integral_contrapositive_currified; [exact slope|lra]. }
    cbn [lift_loop]. rewrite parts. cbn [negb]. rnum. rewrite Ex2. set (xs := (target - b) / m) in *.
    destruct (Rltb (Rabs (xs - x1)) error) eqn:E1; [reflexivity|].
    unfold sbind at 1, set_aero, smod. rewrite Ea. cbn [option_map put_aero]. unfold sbind.
    match goal with |- context [do_solve H ?v] => destruct (solve_affine v xs _ eq_refl) as (g & a' & w' & S1 & S2 & S3 & S4 & S5) end.
    { cbn. rewrite Ab. apply dset_twice. } { exact Ec. }
    rewrite S1. cbv zeta. destruct (Nat.ltb 20 (Datatypes.S i)) eqn:El; [apply Nat.ltb_lt in El; lia|].
    rewrite S2. assert (Ey : m * xs + b - target = 0) by (unfold xs; field; exact slope). rewrite Ey.
    replace (xs - 0 * (xs - x1) / (0 - (m * x1 + b - target))) with xs by (unfold Rdiv; ring).
    replace (xs - xs) with 0 by ring. rewrite Rabs_R0. destruct (Rltb 0 error) eqn:E2; [reflexivity|].
    apply Rltb_false in E2. lra.
  Qed.

  Lemma affine_lift target error f w a x0 :
    w_aero w = Some a -> an a = base -> given a -> w_ctl w = c -> dget (an a) "alpha" = Some x0 -> x0 <> - (1 / 5) -> 0 < error ->
    fst (target_lift H target f error w) = Ok (Answer ((target - b) / m)).
  Proof.
    intros Ea Eb Ha Ec Ex Hx He.
    destruct (target_lift H target f error w) as [r w'] eqn:K.
    destruct (target_lift_given H _ _ _ _ _ _ _ Ea Ha K) as (v & K1 & _). cbn [fst]. clear K.
    unfold lift_body, dlookup in K1. rewrite Ex in K1. unfold sbind at 1, slift at 1 in K1. cbv zeta in K1.
    rewrite Eb in K1.
    set (x1 := nadd (nmul x0 (ndec 15 1)) (ndec 1 1)) in *.
    assert (E1 : x1 = x0 * (3 / 2) + 1 / 10).
    { unfold x1. rnum. unfold Rdec. cbn. field. }
    unfold sbind at 1 in K1. unfold with_aero at 1 in K1.
    match type of K1 with context [do_solve H ?v] => destruct (solve_affine v x0 _ eq_refl eq_refl Ec) as (g0 & a0 & w0 & S1 & S2 & S3 & S4 & S5) end.
    rewrite S1 in K1. unfold with_aero in K1. unfold sbind at 1 in K1.
    match type of K1 with context [do_solve H ?v] => destruct (solve_affine v x1 _ eq_refl eq_refl S5) as (g1 & a1 & w1 & T1 & T2 & T3 & T4 & T5) end.
    rewrite T1 in K1. rewrite S2, T2 in K1.
    pose proof (affine_loop 20 target error f x0 x1 0 w1 a1 ltac:(rewrite E1; lra) He ltac:(lia) T3 T4 T5) as L.
    cbn [nsub Rnum] in K1.
    destruct (lift_loop H 22 target error f x0 (m * x0 + b - target) x1 (m * x1 + b - target) 0 w1) as [r2 w2].
    injection K1 as <- <-. exact L.
  Qed.
End Affine.
